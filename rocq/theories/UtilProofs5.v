(** Proofs about the printing of a whole geometry. *)
From Coq Require Import ZArith List String Ascii Bool Reals Lia Lra.
From Flocq Require Import Core.
From Verif Require Import Base BaseProofs RBase XmlModel XmlSpec XmlProofs NumModel NumSpec NumProofs VecModel ParamsModel CaloModel CaloSpec CaloProofs
  ZpModel ZpSpec FtdModel FtdSpec FtdProofs TrkModel TpcModuleModel TpcModel CaloXmlModel TrkXmlModel TpcXmlModel GearXmlModel UtilModel UtilSpec
  UtilTextProofs UtilProofs UtilProofs2 UtilProofs3 UtilProofs4.
Import ListNotations.
Local Open Scope list_scope.

(** ** Printers that leave another format *)
Definition changes (p : printer) (l : format -> list token) (g : format -> format) : Prop :=
  forall s, p s = SOk (mkSt (st_out s ++ l (st_fm s)) (g (st_fm s))) tt.
Lemma writes_changes : forall p q l m g, writes p l -> changes q m g -> changes (p ;; q) (fun f => l f ++ m f) g.
Proof. intros p q l m g P Q s. unfold then_. rewrite P, Q. cbn [st_out st_fm]. now rewrite app_assoc. Qed.
Lemma changes_writes : forall p q l m g, changes p l g -> writes q m -> changes (p ;; q) (fun f => l f ++ m (g f)) g.
Proof. intros p q l m g P Q s. unfold then_. rewrite P, Q. cbn [st_out st_fm]. now rewrite app_assoc. Qed.

(** ** Materials *)
Definition material_tokens (m : smat) (f : format) : list token :=
  let f8 := mkFm Scientific 8 true (fm_base f) in
  [Text "    "; Text (sm_name m); Text ", A= "; Double f8 (sm_A m); Text ", Z= "; Double f8 (sm_Z m); Text ", density [kg/m3]= "; Double f8 (sm_density m);
   Text ", radiation length [mm]= "; Double f8 (sm_radLength m); Text ", interaction length [mm]= "; Double f8 (sm_intLength m); Text newline]%string.
Lemma step : forall (p q : printer) s s' r, p s = SOk s' tt -> q s' = r -> (p ;; q) s = r.
Proof. intros p q s s' r P Q. unfold then_. rewrite P. exact Q. Qed.
Lemma material_changes : forall m, changes (print_material m) (material_tokens m) spoiled.
Proof.
  intros m [o f]. unfold print_material. cbn [st_fm].
  repeat (eapply step; [reflexivity|cbn [st_out st_fm fm_float fm_prec fm_showpos fm_base]]).
  unfold endl, text, emit, material_tokens, spoiled. cbn [st_out st_fm]. rewrite <- ?app_assoc. cbn [app]. reflexivity.
Qed.
Lemma material_shown : forall m f, exists l, material_line_for m l /\ occurs l (material_tokens m f).
Proof.
  intros m f. exists (material_tokens m f). split; [|apply occurs_refl]. unfold material_line_for, material_tokens. repeat eexists.
Qed.
Lemma spoiled_twice : forall f, spoiled (spoiled f) = spoiled f.
Proof. reflexivity. Qed.
Definition after_materials {V} (ks : smap V) (f : format) : format := match ks with [] => f | _ => spoiled f end.
Lemma mats_changes : forall (M : smap smat) (ks : list string), (forall k, In k ks -> exists m, look_up k M = Ok m) ->
  exists L, changes (all_of (fun k => have (look_up k M) (fun m => print_material m ;; endl)) ks) L (fun f => match ks with [] => f | _ => spoiled f end) /\
    forall k m f, In k ks -> look_up k M = Ok m -> exists l, material_line_for m l /\ occurs l (L f).
Proof.
  induction ks as [|k ks IH]; intros H.
  - exists (fun _ => []). split; [|intros k m f []]. intros [o f]. unfold all_of, nothing. cbn. now rewrite app_nil_r.
  - destruct IH as [L [C O]]; [intros x X; apply H; now right|]. destruct (H k (or_introl eq_refl)) as [m E].
    exists (fun f => (material_tokens m f ++ [Text newline]) ++ L (spoiled f)). split.
    + intros s. cbn [all_of]. unfold then_ at 1. rewrite E. cbn [have]. rewrite (changes_writes _ _ _ _ _ (material_changes m) writes_endl s), C. cbn [st_out st_fm].
      rewrite <- !app_assoc. destruct ks; reflexivity.
    + intros k' m' f [->|I] E'.
      * rewrite E in E'. injection E' as <-. destruct (material_shown m f) as [l [A B]]. exists l. split; [exact A|]. do 2 apply occurs_left. exact B.
      * destruct (O k' m' (spoiled f) I E') as [l [A B]]. exists l. split; [exact A|]. now apply occurs_right.
Qed.

(** ** Parts *)
Lemma part_writes : forall O first heading (o : option O) (print : O -> printer), (forall x, o = Some x -> quiet (print x)) ->
  exists l, writes (part first heading o print) l /\
    (forall x, o = Some x -> exists b, writes (print x) b /\ forall f, occurs (Text heading :: Text newline :: b f) (l f)) /\
    (o = None -> first = false -> forall f, l f = [Text heading; Text newline]).
Proof.
  intros O first heading [x|] print Q.
  - destruct (Q x eq_refl) as [b W]. exists (fun f => [Text heading; Text newline] ++ b f ++ [Text newline]). split; [|split; [|discriminate]].
    + unfold part. apply writes_catch. unfold after_head, present. destruct first.
      * eapply writes_have; [reflexivity|]. eapply writes_ext; [|wr]. intros f. rewrite <- ?app_assoc. cbn [app]. reflexivity.
      * eapply writes_ext; [|eapply writes_then; [wr|eapply writes_have; [reflexivity|wr]]]. intros f. rewrite <- ?app_assoc. cbn [app]. reflexivity.
    + intros y Y. injection Y as <-. exists b. split; [exact W|]. intros f. exists [], [Text newline]. reflexivity.
  - destruct first.
    + exists (fun _ => []). split; [|split; discriminate]. intros s. unfold part, after_head, present, catch_unknown, have, nothing. cbn [st_out]. rewrite app_nil_r. destruct s; reflexivity.
    + exists (fun _ => [Text heading; Text newline]). split; [|split; [discriminate|reflexivity]]. intros s.
      unfold part, after_head, present, catch_unknown, have, nothing, then_, text, endl, text, emit. cbn [st_out st_fm]. rewrite <- app_assoc. reflexivity.
Qed.
Lemma bare_writes : forall O (o : option O) (print : O -> printer), (forall x, o = Some x -> quiet (print x)) ->
  exists l, writes (bare o print) l /\
    forall x, o = Some x -> exists b, writes (print x) b /\ forall f, occurs (b f) (l f).
Proof.
  intros O [x|] print Q.
  - destruct (Q x eq_refl) as [b W]. exists (fun f => b f ++ [Text newline]). split.
    + unfold bare, present. apply writes_catch. eapply writes_have; [reflexivity|]. wr.
    + intros y Y. injection Y as <-. exists b. split; [exact W|]. intros f. apply occurs_left, occurs_refl.
  - exists (fun _ => []). split; [|discriminate]. intros s. unfold bare, present, catch_unknown, have, nothing. cbn [st_out]. rewrite app_nil_r. destruct s; reflexivity.
Qed.
Lemma name_writes : forall ord g, exists l, writes (print_name ord g) (fun _ => l) /\ (g_name g <> ""%string -> occurs [Text (g_name g)] l).
Proof.
  intros ord g. unfold print_name, detector_name. destruct (String.eqb_spec (g_name g) "") as [E|E].
  - assert (T : forall p q e h t, writes h t -> writes q p -> writes (catch_unknown (h ;; have (Throw (EUnknownParameter e) : result string) (fun n => text n ;; endl ;; endl)) q) (fun f => t f ++ p f)).
    { intros p q e h t H Q s. unfold catch_unknown, have, then_ at 1. rewrite H, Q. cbn [st_out st_fm]. now rewrite app_assoc. }
    assert (U : forall p q e (k : string -> printer), writes q p -> writes (catch_unknown (have (Throw (EUnknownParameter e) : result string) k) q) p).
    { intros p q e k Q s. unfold catch_unknown, have. apply Q. }
    rewrite E. unfold after_head. destruct (ord "name"%string); eexists; (split; [|congruence]).
    + apply U. eapply writes_ext; [|wr]. intros f. cbn [app]. reflexivity.
    + eapply writes_ext; [|apply T; wr]. intros f. cbn [app]. reflexivity.
  - destruct (ord "name"%string); eexists; (split; [apply writes_catch|]).
    + unfold after_head. eapply writes_have; [reflexivity|]. eapply writes_ext; [|wr]. intros f. cbn [app]. reflexivity.
    + intros _. occ.
    + unfold after_head. eapply writes_ext; [|eapply writes_then; [wr|eapply writes_have; [reflexivity|wr]]]. intros f. cbn [app]. reflexivity.
    + intros _. occ.
Qed.
Lemma field_quiet : forall o, quiet (print_field o).
Proof. intros [b ps]. destruct (params_quiet ps) as [lp W]. destruct (field_written b ps lp W) as [l [Wl _]]. now exists l. Qed.
Lemma bfield_writes : forall g, exists l, writes (print_bfield g) l /\
  forall o, g_field g = Some o -> exists b, writes (print_field o) b /\ forall f, l f = b f ++ [Text newline].
Proof.
  intros g. unfold print_bfield, present. destruct (g_field g) as [o|].
  - destruct (field_quiet o) as [b W]. exists (fun f => b f ++ [Text newline]). split.
    + apply writes_catch. eapply writes_have; [reflexivity|]. wr.
    + intros x X. injection X as <-. exists b. auto.
  - eexists. split; [|discriminate]. intros s. unfold catch_unknown, have. cbn [st_out].
    match goal with |- ?p s = SOk (mkSt (st_out s ++ ?l (st_fm s)) (st_fm s)) tt => revert s; change (writes p l) end. wr.
Qed.
Lemma tpc_quiet : forall ord o, quiet (print_tpc ord o).
Proof. intros ord o. destruct (params_quiet (to_par o)) as [lp W]. destruct (tpc_written ord o lp W) as [l [Wl _]]. now exists l. Qed.
Lemma generic_writes : forall (G : smap params),
  exists L, writes (all_of (fun k => endl ;; text "   ------  name : " ;; text k ;; text " ------- " ;; endl ;;
                   have (look_up k G) (fun p => print_params p ;; endl)) (sm_keys G)) L /\
    forall k p f, sm_find k G = Some p -> exists b, writes (print_params p) b /\
      occurs ([Text "   ------  name : "; Text k; Text " ------- "; Text newline]%string ++ b f) (L f).
Proof.
  intros G. set (one := fun k => endl ;; _).
  assert (ON : forall k p b, look_up k G = Ok p -> writes (print_params p) b ->
    writes (one k) (fun f => [Text newline; Text "   ------  name : "; Text k; Text " ------- "; Text newline]%string ++ b f ++ [Text newline])).
  { intros k p b E W. unfold one. eapply writes_ext; [|repeat first [wr1 | eapply writes_have; [exact E|]]]. intros f. reflexivity. }
  destruct (all_choice _ one (sm_keys G)) as [L [WL C]].
  { intros k K. destruct (key_found _ G k K) as [p E]. destruct (params_quiet p) as [b W]. eexists. apply (ON k p b E W). }
  exists L. split; [exact WL|]. intros k p f E.
  assert (E' : look_up k G = Ok p) by (unfold look_up, lookup_or_throw; now rewrite E).
  destruct (params_quiet p) as [b W]. exists b. split; [exact W|]. destruct (C k (found_key _ _ _ _ E')) as [lx [Wx Ox]].
  specialize (ON k p b E' W).
  assert (X : lx f = [Text newline; Text "   ------  name : "; Text k; Text " ------- "; Text newline]%string ++ b f ++ [Text newline]).
  { specialize (Wx (mkSt [] f)). specialize (ON (mkSt [] f)). rewrite Wx in ON. cbn in ON. injection ON. auto. }
  apply occurs_trans with (lx f); [|apply Ox]. rewrite X. exists [Text newline], [Text newline]. cbn [app]. reflexivity.
Qed.

Lemma calo_heading_for : forall s, heading_for (calo_called s) (calo_heading s).
Proof.
  assert (H : forall a x b, heading_for x (a ++ x ++ b)%string) by (intros a x b; exists a, b; reflexivity).
  intros s. destruct s;
  first [exact (H "   ----  " _ "    ---- ")%string | exact (H "   ----  " _ "   ---- ")%string | exact (H "   ---- " _ "  ---- ")%string].
Qed.
Lemma zp_heading_for : forall s, heading_for (zp_called s) (zp_heading s).
Proof. intros []; exists "   ----  "%string, "    ---- "%string; reflexivity. Qed.

(** ** The whole *)
Definition mgr_output (ord : string -> bool) (g : content) (L : format -> list token) : Prop :=
  (forall f, everything_in ord g f (L f)) /\
  (forall o f, g_zp g SIT = Some o -> exists b, alone (print_zp o) f b /\ occurs_twice b (L f)) /\
  (forall o f, g_zp g SET = Some o -> exists b, alone (print_zp o) f b /\ occurs_twice b (L f)) /\
  (forall o, g_field g = Some o -> exists a b c, writes (print_field o) b /\ forall f, L f = a ++ b f ++ c f) /\
  (forall s f, g_zp g s = None -> ord (zp_heading s) = false -> occurs [Text (zp_heading s); Text newline] (L f)) /\
  (forall s f, g_calo g s = None -> ord (calo_heading s) = false -> occurs [Text (calo_heading s); Text newline] (L f)).
Ltac find_occ H := first [exact H | apply occurs_left; exact H | apply occurs_right; find_occ H].
Lemma twice_app : forall b x y z, occurs b x -> occurs b z -> occurs_twice b (x ++ y ++ z).
Proof.
  intros b x y z [a1 [b1 ->]] [a2 [b2 ->]]. exists a1, (b1 ++ y ++ a2), b2. rewrite <- ?app_assoc. cbn [app]. reflexivity.
Qed.
Lemma twice_left : forall b x y, occurs_twice b x -> occurs_twice b (x ++ y).
Proof. intros b x y [u [v [w ->]]]. exists u, v, (w ++ y). rewrite <- ?app_assoc. cbn [app]. reflexivity. Qed.
Lemma twice_right : forall b x y, occurs_twice b y -> occurs_twice b (x ++ y).
Proof. intros b x y [u [v [w ->]]]. exists (x ++ u), v, w. rewrite <- ?app_assoc. cbn [app]. reflexivity. Qed.
Lemma twice_first : forall b x y, occurs b x -> occurs b y -> occurs_twice b (x ++ y).
Proof. intros b x y A B. apply (twice_app b x [] y A B). Qed.

Lemma mgr_changes : forall ord g, printable g -> exists L, changes (print_mgr ord g) L (after_materials (g_mat g)) /\ mgr_output ord g L.
Proof.
  intros ord g [[Hzp [Hcalo [Hsi Htp]]] Hftd].
  destruct (name_writes ord g) as [ln [Wn On]]. destruct (bfield_writes g) as [lb [Wb Ob]].
  assert (PZ : forall s, exists l, writes (zp_part ord g s) l /\
    (forall x, g_zp g s = Some x -> exists b, writes (print_zp x) b /\ forall f, occurs (Text (zp_heading s) :: Text newline :: b f) (l f)) /\
    (g_zp g s = None -> ord (zp_heading s) = false -> forall f, l f = [Text (zp_heading s); Text newline])).
  { intros s. apply part_writes. intros x X. apply zp_quiet. now apply (Hzp s). }
  assert (PC : forall s, exists l, writes (calo_part ord g s) l /\
    (forall x, g_calo g s = Some x -> exists b, writes (print_calo x) b /\ forall f, occurs (Text (calo_heading s) :: Text newline :: b f) (l f)) /\
    (g_calo g s = None -> ord (calo_heading s) = false -> forall f, l f = [Text (calo_heading s); Text newline])).
  { intros s. apply part_writes. intros x X. apply calo_quiet. now apply (Hcalo s). }
  assert (BZ : forall s, exists l, writes (bare (g_zp g s) print_zp) l /\
    forall x, g_zp g s = Some x -> exists b, writes (print_zp x) b /\ forall f, occurs (b f) (l f)).
  { intros s. apply bare_writes. intros x X. apply zp_quiet. now apply (Hzp s). }
  destruct (PZ VXD) as [l1 [W1 [O1 N1]]]. destruct (PZ SIT) as [l3 [W3 [O3 N3]]]. destruct (PZ SET) as [l4 [W4 [O4 N4]]].
  destruct (bare_writes _ (g_ftd g) print_ftd) as [l2 [W2 O2]].
  { intros x X. destruct (Hftd x X) as [h [S N]]. now apply (ftd_quiet x h). }
  destruct (BZ SIT) as [l5 [W5 O5]]. destruct (BZ SET) as [l6 [W6 O6]].
  destruct (bare_writes _ (g_tpc g) (print_tpc ord)) as [l7 [W7 O7]]; [intros; apply tpc_quiet|].
  destruct (PC EcalBarrel) as [c1 [V1 [P1 M1]]]. destruct (PC EcalEndcap) as [c2 [V2 [P2 M2]]]. destruct (PC EcalPlug) as [c3 [V3 [P3 M3]]].
  destruct (PC YokeBarrel) as [c4 [V4 [P4 M4]]]. destruct (PC YokeEndcap) as [c5 [V5 [P5 M5]]]. destruct (PC YokePlug) as [c6 [V6 [P6 M6]]].
  destruct (PC HcalBarrel) as [c7 [V7 [P7 M7]]]. destruct (PC HcalEndcap) as [c8 [V8 [P8 M8]]]. destruct (PC HcalRing) as [c9 [V9 [P9 M9]]].
  destruct (PC Lcal) as [c10 [V10 [P10 M10]]]. destruct (PC LHcal) as [c11 [V11 [P11 M11]]]. destruct (PC BeamCal) as [c12 [V12 [P12 M12]]].
  clear PZ PC BZ.
  destruct (part_writes _ (ord "TrackerPlanes"%string) "   ----  TrackerPlanes ---- " (g_tp g) print_tp) as [l8 [W8 [O8 _]]]; [intros x X; now apply tp_quiet, Htp|].
  destruct (part_writes _ (ord "SiPlanes"%string) "   ----  SiPlanes ---- " (g_si g) print_si) as [l9 [W9 [O9 _]]]; [intros x X; now apply si_quiet, Hsi|].
  destruct (generic_writes (g_generic g)) as [lg [Wg Og]].
  destruct (mats_changes (g_mat g) (sm_keys (g_mat g))) as [lm [Cm Om]].
  { intros k K. apply (key_found _ _ _ K). }
  eexists. split.
  { unfold print_mgr.
    repeat (eapply writes_changes; [first [eassumption | apply writes_text | apply writes_endl]|]).
    eapply changes_writes; [|wr].
    replace (after_materials (g_mat g)) with (fun f : format => match sm_keys (g_mat g) with [] => f | _ => spoiled f end)
      by (unfold after_materials, sm_keys; destruct (g_mat g); reflexivity).
    exact Cm. }
  clear Hzp Hcalo Hsi Htp Hftd.
  unfold mgr_output. split; [|split; [|split; [|split; [|split]]]].
  - intros f. unfold everything_in.
    assert (UH : forall O name h (x : O) print (l out : list token) (b : format -> list token), heading_for name h -> writes (print x) b ->
              occurs (Text h :: Text newline :: b f) l -> occurs l out -> under_heading name (print x) f out).
    { intros O name h x print l out b H W A B. exists h, (b f). split; [exact H|]. split; [now apply writes_alone|]. now apply occurs_trans with l. }
    assert (SH : forall p (l out : list token) (b : format -> list token), writes p b -> occurs (b f) l -> occurs l out -> shown p f out).
    { intros p l out b W A B. exists (b f). split; [now apply writes_alone|]. now apply occurs_trans with l. }
    split; [|split; [|split; [|split; [|split; [|split; [|split; [|split; [|split]]]]]]]].
    + intros N. specialize (On N). apply occurs_trans with ln; [exact On|]. clear. do 6 apply occurs_cons. apply occurs_left, occurs_refl.
    + intros o E. destruct (Ob o E) as [b [W X]]. apply (SH _ (lb f) _ b W); [rewrite X; apply occurs_left, occurs_refl|].
      clear. do 6 apply occurs_cons. apply occurs_right, occurs_left, occurs_refl.
    + intros [] o E.
      * destruct (O1 o E) as [b [W X]]. apply (UH _ _ _ _ print_zp (l1 f) _ b (zp_heading_for VXD) W (X f)). clear. do 6 apply occurs_cons. do 2 apply occurs_right. apply occurs_left, occurs_refl.
      * destruct (O3 o E) as [b [W X]]. apply (UH _ _ _ _ print_zp (l3 f) _ b (zp_heading_for SIT) W (X f)). clear. do 6 apply occurs_cons. do 4 apply occurs_right. apply occurs_left, occurs_refl.
      * destruct (O4 o E) as [b [W X]]. apply (UH _ _ _ _ print_zp (l4 f) _ b (zp_heading_for SET) W (X f)). clear. do 6 apply occurs_cons. do 5 apply occurs_right. apply occurs_left, occurs_refl.
    + intros o E. destruct (O2 o E) as [b [W X]]. apply (SH _ (l2 f) _ b W (X f)). clear. do 6 apply occurs_cons. do 3 apply occurs_right. apply occurs_left, occurs_refl.
    + intros o E. destruct (O7 o E) as [b [W X]]. apply (SH _ (l7 f) _ b W (X f)). clear. do 6 apply occurs_cons. do 8 apply occurs_right. apply occurs_left, occurs_refl.
    + intros [] o E.
      * destruct (P1 o E) as [b [W X]]. apply (UH _ _ _ _ print_calo (c1 f) _ b (calo_heading_for EcalBarrel) W (X f)). clear. do 6 apply occurs_cons. do 9 apply occurs_right. apply occurs_left, occurs_refl.
      * destruct (P2 o E) as [b [W X]]. apply (UH _ _ _ _ print_calo (c2 f) _ b (calo_heading_for EcalEndcap) W (X f)). clear. do 6 apply occurs_cons. do 10 apply occurs_right. apply occurs_left, occurs_refl.
      * destruct (P3 o E) as [b [W X]]. apply (UH _ _ _ _ print_calo (c3 f) _ b (calo_heading_for EcalPlug) W (X f)). clear. do 6 apply occurs_cons. do 11 apply occurs_right. apply occurs_left, occurs_refl.
      * destruct (P4 o E) as [b [W X]]. apply (UH _ _ _ _ print_calo (c4 f) _ b (calo_heading_for YokeBarrel) W (X f)). clear. do 6 apply occurs_cons. do 12 apply occurs_right. apply occurs_left, occurs_refl.
      * destruct (P5 o E) as [b [W X]]. apply (UH _ _ _ _ print_calo (c5 f) _ b (calo_heading_for YokeEndcap) W (X f)). clear. do 6 apply occurs_cons. do 13 apply occurs_right. apply occurs_left, occurs_refl.
      * destruct (P6 o E) as [b [W X]]. apply (UH _ _ _ _ print_calo (c6 f) _ b (calo_heading_for YokePlug) W (X f)). clear. do 6 apply occurs_cons. do 14 apply occurs_right. apply occurs_left, occurs_refl.
      * destruct (P7 o E) as [b [W X]]. apply (UH _ _ _ _ print_calo (c7 f) _ b (calo_heading_for HcalBarrel) W (X f)). clear. do 6 apply occurs_cons. do 15 apply occurs_right. apply occurs_left, occurs_refl.
      * destruct (P8 o E) as [b [W X]]. apply (UH _ _ _ _ print_calo (c8 f) _ b (calo_heading_for HcalEndcap) W (X f)). clear. do 6 apply occurs_cons. do 16 apply occurs_right. apply occurs_left, occurs_refl.
      * destruct (P9 o E) as [b [W X]]. apply (UH _ _ _ _ print_calo (c9 f) _ b (calo_heading_for HcalRing) W (X f)). clear. do 6 apply occurs_cons. do 17 apply occurs_right. apply occurs_left, occurs_refl.
      * destruct (P10 o E) as [b [W X]]. apply (UH _ _ _ _ print_calo (c10 f) _ b (calo_heading_for Lcal) W (X f)). clear. do 6 apply occurs_cons. do 18 apply occurs_right. apply occurs_left, occurs_refl.
      * destruct (P11 o E) as [b [W X]]. apply (UH _ _ _ _ print_calo (c11 f) _ b (calo_heading_for LHcal) W (X f)). clear. do 6 apply occurs_cons. do 19 apply occurs_right. apply occurs_left, occurs_refl.
      * destruct (P12 o E) as [b [W X]]. apply (UH _ _ _ _ print_calo (c12 f) _ b (calo_heading_for BeamCal) W (X f)). clear. do 6 apply occurs_cons. do 20 apply occurs_right. apply occurs_left, occurs_refl.
    + intros o E. destruct (O8 o E) as [b [W X]]. apply (UH _ "TrackerPlanes"%string _ _ print_tp (l8 f) _ b) with (3 := X f); [exists "   ----  "%string, " ---- "%string; reflexivity|exact W|].
      clear. do 6 apply occurs_cons. do 21 apply occurs_right. apply occurs_left, occurs_refl.
    + intros o E. destruct (O9 o E) as [b [W X]]. apply (UH _ "SiPlanes"%string _ _ print_si (l9 f) _ b) with (3 := X f); [exists "   ----  "%string, " ---- "%string; reflexivity|exact W|].
      clear. do 6 apply occurs_cons. do 22 apply occurs_right. apply occurs_left, occurs_refl.
    + intros k p E. destruct (Og k p f E) as [b [W X]]. exists (Text "   ------  name : "), (b f), (Text " ------- "). split; [now apply writes_alone|].
      apply occurs_trans with (lg f); [exact X|]. clear. do 6 apply occurs_cons. do 23 apply occurs_right. do 3 apply occurs_cons. apply occurs_left, occurs_refl.
    + intros k m E. assert (E' : look_up k (g_mat g) = Ok m) by (unfold look_up, lookup_or_throw; now rewrite E).
      destruct (Om k m f (found_key _ _ _ _ E') E') as [l [A B]]. exists l. split; [exact A|].
      apply occurs_trans with (lm f); [exact B|]. clear. do 6 apply occurs_cons. do 23 apply occurs_right. do 3 apply occurs_cons. apply occurs_right. do 4 apply occurs_cons. apply occurs_left, occurs_refl.
  - intros o f E. destruct (O3 o E) as [b [W X]]. destruct (O5 o E) as [b' [W' X']].
    assert (EB : b' f = b f). { specialize (W (mkSt [] f)). specialize (W' (mkSt [] f)). rewrite W in W'. cbn in W'. injection W'. auto. }
    exists (b f). split; [now apply writes_alone|]. specialize (X f). specialize (X' f). rewrite EB in X'.
    assert (XX : occurs (b f) (l3 f)) by (apply occurs_trans with (2 := X); do 2 apply occurs_cons; apply occurs_refl). clear - X' XX.
    cbv beta. cbn [app]. do 6 (apply (twice_right _ [_])). do 4 apply twice_right.
    apply twice_first; [exact XX|]. apply occurs_right, occurs_left. exact X'.
  - intros o f E. destruct (O4 o E) as [b [W X]]. destruct (O6 o E) as [b' [W' X']].
    assert (EB : b' f = b f). { specialize (W (mkSt [] f)). specialize (W' (mkSt [] f)). rewrite W in W'. cbn in W'. injection W'. auto. }
    exists (b f). split; [now apply writes_alone|]. specialize (X f). specialize (X' f). rewrite EB in X'.
    assert (XX : occurs (b f) (l4 f)) by (apply occurs_trans with (2 := X); do 2 apply occurs_cons; apply occurs_refl). clear - X' XX.
    cbv beta. cbn [app]. do 6 (apply (twice_right _ [_])). do 5 apply twice_right.
    apply twice_first; [exact XX|]. apply occurs_right, occurs_left. exact X'.
  - intros o E. destruct (Ob o E) as [b [W X]]. eexists. exists b. eexists. split; [exact W|]. intros f. cbv beta. cbn [app]. rewrite X. rewrite <- (app_assoc (b f)).
    match goal with |- ?t :: ?u :: ?v :: ?w :: ?x :: ?y :: ?r = _ => change (t :: u :: v :: w :: x :: y :: r) with ([t; u; v; w; x; y] ++ r) end.
    rewrite (app_assoc _ ln). f_equal. f_equal. reflexivity.
  - intros s f E O. clear - s N1 N3 N4 E O. cbv beta. cbn [app]. do 6 apply occurs_cons. destruct s.
    + specialize (N1 E O f). do 2 apply occurs_right. apply occurs_left. rewrite N1. apply occurs_refl.
    + specialize (N3 E O f). do 4 apply occurs_right. apply occurs_left. rewrite N3. apply occurs_refl.
    + specialize (N4 E O f). do 5 apply occurs_right. apply occurs_left. rewrite N4. apply occurs_refl.
  - intros s f E O. clear - s M1 M2 M3 M4 M5 M6 M7 M8 M9 M10 M11 M12 E O. cbv beta. cbn [app]. do 6 apply occurs_cons. do 9 apply occurs_right. destruct s.
    + specialize (M1 E O f). apply occurs_left. rewrite M1. apply occurs_refl.
    + specialize (M2 E O f). do 1 apply occurs_right. apply occurs_left. rewrite M2. apply occurs_refl.
    + specialize (M3 E O f). do 2 apply occurs_right. apply occurs_left. rewrite M3. apply occurs_refl.
    + specialize (M4 E O f). do 3 apply occurs_right. apply occurs_left. rewrite M4. apply occurs_refl.
    + specialize (M5 E O f). do 4 apply occurs_right. apply occurs_left. rewrite M5. apply occurs_refl.
    + specialize (M6 E O f). do 5 apply occurs_right. apply occurs_left. rewrite M6. apply occurs_refl.
    + specialize (M7 E O f). do 6 apply occurs_right. apply occurs_left. rewrite M7. apply occurs_refl.
    + specialize (M8 E O f). do 7 apply occurs_right. apply occurs_left. rewrite M8. apply occurs_refl.
    + specialize (M9 E O f). do 8 apply occurs_right. apply occurs_left. rewrite M9. apply occurs_refl.
    + specialize (M10 E O f). do 9 apply occurs_right. apply occurs_left. rewrite M10. apply occurs_refl.
    + specialize (M11 E O f). do 10 apply occurs_right. apply occurs_left. rewrite M11. apply occurs_refl.
    + specialize (M12 E O f). do 11 apply occurs_right. apply occurs_left. rewrite M12. apply occurs_refl.
Qed.

(** the two printers above, alone *)
Lemma everything_printed : forall ord g s, printable g ->
  exists l, print_mgr ord g s = SOk (mkSt (st_out s ++ l) (after_materials (g_mat g) (st_fm s))) tt /\ everything_in ord g (st_fm s) l.
Proof.
  intros ord g s P. destruct (mgr_changes ord g P) as [L [C M]]. exists (L (st_fm s)). split; [apply C|apply (proj1 M)].
Qed.
Lemma sit_set_twice : forall ord g s slot o, printable g -> slot <> VXD -> g_zp g slot = Some o ->
  exists l s' b, print_mgr ord g s = SOk s' tt /\ st_out s' = st_out s ++ l /\ alone (print_zp o) (st_fm s) b /\ occurs_twice b l.
Proof.
  intros ord g s slot o P N E. destruct (mgr_changes ord g P) as [L [C [_ [A [B _]]]]]. exists (L (st_fm s)). eexists.
  destruct slot; [congruence| |].
  - destruct (A o (st_fm s) E) as [b [X Y]]. exists b. split; [apply C|]. auto.
  - destruct (B o (st_fm s) E) as [b [X Y]]. exists b. split; [apply C|]. auto.
Qed.
Lemma heading_alone : forall g s slot, printable g -> g_zp g slot = None ->
  exists l s' h, print_mgr (fun _ => false) g s = SOk s' tt /\ st_out s' = st_out s ++ l /\ heading_for (zp_called slot) h /\ occurs [Text h; Text newline] l.
Proof.
  intros g s slot P E. destruct (mgr_changes (fun _ => false) g P) as [L [C [_ [_ [_ [_ [A _]]]]]]]. exists (L (st_fm s)). eexists. exists (zp_heading slot).
  split; [apply C|]. split; [reflexivity|]. split; [apply zp_heading_for|]. now apply A.
Qed.
Lemma calo_heading_alone : forall g s slot, printable g -> g_calo g slot = None ->
  exists l s' h, print_mgr (fun _ => false) g s = SOk s' tt /\ st_out s' = st_out s ++ l /\ heading_for (calo_called slot) h /\ occurs [Text h; Text newline] l.
Proof.
  intros g s slot P E. destruct (mgr_changes (fun _ => false) g P) as [L [C [_ [_ [_ [_ [_ A]]]]]]]. exists (L (st_fm s)). eexists. exists (calo_heading slot).
  split; [apply C|]. split; [reflexivity|]. split; [apply calo_heading_for|]. now apply A.
Qed.

(** ** Printing again *)
Lemma print_formats : forall ord g, printable g -> exists L : format -> list token,
  (forall s, print_mgr ord g s = SOk (mkSt (st_out s ++ L (st_fm s)) (after_materials (g_mat g) (st_fm s))) tt) /\
  (forall f o, g_field g = Some o -> L f = L (spoiled f) -> f = spoiled f).
Proof.
  intros ord g P. destruct (mgr_changes ord g P) as [L [C M]]. exists L. split; [exact C|].
  intros f [b ps] E Q. destruct M as [_ [_ [_ [F _]]]]. destruct (F _ E) as [a [lb [c [W X]]]].
  rewrite !X in Q. apply app_inv_head in Q.
  assert (Y : exists u v, forall f, lb f = u ++ Double f (vx b) :: v f).
  { destruct (params_quiet ps) as [lp Wp].
    assert (Z : exists u v, writes (print_field (b, ps)) (fun f => u ++ Double f (vx b) :: v f)).
    { exists [Text newline; Text "   -----------   BField   ------- "; Text newline; Text newline; Text "       field vector at origin :   Bx = "].
      eexists. unfold print_field. eapply writes_ext; [|wr]. intros g0. cbn [app]. reflexivity. }
    destruct Z as [u [v Wv]]. exists u, v. intros f0. specialize (W (mkSt [] f0)). specialize (Wv (mkSt [] f0)). rewrite W in Wv. cbn in Wv. injection Wv. auto. }
  destruct Y as [u [v Y]]. rewrite !Y in Q. rewrite <- !app_assoc in Q. apply app_inv_head in Q. cbn [app] in Q. injection Q as Q _. exact Q.
Qed.
Lemma print_twice : forall ord g s, printable g -> g_mat g <> [] -> g_field g <> None -> st_fm s <> spoiled (st_fm s) ->
  exists l1 l2, l1 <> l2 /\
    let s1 := mkSt (st_out s ++ l1) (spoiled (st_fm s)) in
    let s2 := mkSt (st_out s1 ++ l2) (spoiled (st_fm s)) in
    let s3 := mkSt (st_out s2 ++ l2) (spoiled (st_fm s)) in
    print_mgr ord g s = SOk s1 tt /\ print_mgr ord g s1 = SOk s2 tt /\ print_mgr ord g s2 = SOk s3 tt.
Proof.
  intros ord g s P M F N. destruct (print_formats ord g P) as [L [C D]]. destruct (g_field g) as [o|] eqn:E; [|congruence].
  exists (L (st_fm s)), (L (spoiled (st_fm s))). split; [intros Q; apply N; exact (D _ o eq_refl Q)|].
  cbv zeta. rewrite !C. cbn [st_out st_fm]. unfold after_materials. destruct (g_mat g); [congruence|]. rewrite !spoiled_twice. auto.
Qed.
Lemma print_twice_same : forall ord g s, printable g -> g_mat g = [] \/ st_fm s = spoiled (st_fm s) ->
  exists l, let s1 := mkSt (st_out s ++ l) (st_fm s) in
    print_mgr ord g s = SOk s1 tt /\ print_mgr ord g s1 = SOk (mkSt (st_out s1 ++ l) (st_fm s)) tt.
Proof.
  intros ord g s P H. destruct (print_formats ord g P) as [L [C _]]. exists (L (st_fm s)). cbv zeta. rewrite !C. cbn [st_out st_fm].
  unfold after_materials. destruct H as [->|H]; [auto|]. destruct (g_mat g); [auto|]. rewrite <- H. auto.
Qed.

(** ** A long FTD *)
Lemma then_same : forall p q q' s, (forall t, q t = q' t) -> (p ;; q) s = (p ;; q') s.
Proof. intros p q q' s H. unfold then_. destruct (p s); [apply H|reflexivity|reflexivity]. Qed.
Lemma bare_fails : forall O (o : O) print l e, fails (print o) l e -> (forall n, e <> EUnknownParameter n) -> fails (bare (Some o) print) l e.
Proof.
  intros O o print l e H N s. unfold bare, present, catch_unknown, have, then_. rewrite H. destruct e; try reflexivity. exfalso. exact (N _ eq_refl).
Qed.
Lemma ftd_stops : forall ord g s o h, others_printable g -> g_ftd g = Some o -> ftd_small o h -> (8 <= List.length h)%nat ->
  (exists s' e, print_mgr ord g s = SThrow s' e /\ forall n, e <> EUnknownParameter n) /\
  forall g', g_name g' = g_name g -> g_field g' = g_field g -> g_zp g' VXD = g_zp g VXD -> g_ftd g' = g_ftd g -> print_mgr ord g' s = print_mgr ord g s.
Proof.
  intros ord g s [p ps] h [Hzp _] E [E1 S] N. cbn [fst] in E1. subst p. destruct (ftd_throws h ps S N) as [lf Wf].
  assert (B : fails (bare (g_ftd g) print_ftd) lf (EOutOfRange "vector::at")) by (rewrite E; apply bare_fails; [exact Wf|discriminate]).
  split.
  - destruct (name_writes ord g) as [ln [Wn _]]. destruct (bfield_writes g) as [lb [Wb _]].
    destruct (part_writes _ (ord (zp_heading VXD)) (zp_heading VXD) (g_zp g VXD) print_zp) as [l1 [W1 _]]; [intros x X; apply zp_quiet; now apply (Hzp VXD)|].
    assert (F : exists l, fails (print_mgr ord g) l (EOutOfRange "vector::at")).
    { eexists. unfold print_mgr. do 6 (eapply fails_then; [first [apply writes_text | apply writes_endl]|]).
      eapply fails_then; [exact Wn|]. eapply fails_then; [exact Wb|]. eapply fails_then; [exact W1|]. apply fails_first. exact B. }
    destruct F as [l F]. eexists. eexists. split; [apply F|]. discriminate.
  - intros g' G1 G2 G3 G4. unfold print_mgr. do 6 (apply then_same; intros).
    replace (print_name ord g') with (print_name ord g) by (unfold print_name, detector_name; now rewrite G1). apply then_same; intros.
    replace (print_bfield g') with (print_bfield g) by (unfold print_bfield; now rewrite G2). apply then_same; intros.
    replace (zp_part ord g' VXD) with (zp_part ord g VXD) by (unfold zp_part; now rewrite G3). apply then_same; intros.
    rewrite G4. unfold then_ at 1. rewrite B. unfold then_ at 1. rewrite B. reflexivity.
Qed.
