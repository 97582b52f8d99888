(** Proofs about whole geometries in files (C38): saving and loading. *)
From Coq Require Import ZArith List String Ascii Bool Reals Lia Lra Sorted.
From Verif Require Import Base BaseProofs RBase VecModel XmlModel XmlSpec XmlProofs XmlProofs3 NumModel NumSpec NumProofs HxModel HxSpec HxProofs
  ParamsModel ParamsSpec ParamsProofs ParXmlModel ParXmlSpec ParXmlProofs CaloModel CaloXmlModel CaloXmlProofs ZpModel FtdModel
  PadXmlModel PadXmlProofs PadXmlProofs2 TrkModel TrkXmlModel TrkXmlSpec TrkXmlProofs TrkXmlProofs2 TrkXmlProofs3 TrkXmlProofs4
  TpcModuleModel TpcModel TpcXmlModel TpcXmlSpec TpcXmlProofs TpcXmlProofs2 GearXmlModel GearXmlSpec GearXmlProofs GearXmlProofs2.
Import ListNotations.
Open Scope list_scope.

(** ** What all managers have in common *)
Record inv (g : content) : Prop := mkInv {
  inv_generic : StronglySorted slt (sm_keys (g_generic g));
  inv_mat : StronglySorted slt (sm_keys (g_mat g));
  inv_name : forall k m, In (k, m) (g_mat g) -> sm_name m = k;
  inv_angle : forall s o, forward s = true -> g_calo g s = Some o -> exists v, getDoubleVal (snd o) "beam_crossing_angle" = Ok v
}.
Lemma calo_slot_eqb_spec : forall a b, reflect (a = b) (calo_slot_eqb a b).
Proof. intros [] []; constructor; congruence. Qed.
Lemma zp_slot_eqb_spec : forall a b, reflect (a = b) (zp_slot_eqb a b).
Proof. intros [] []; constructor; congruence. Qed.
Lemma angle_there : forall p, exists v, getDoubleVal (with_angle p) "beam_crossing_angle" = Ok v.
Proof.
  intros p. unfold with_angle. destruct (getDoubleVal p "beam_crossing_angle") as [v|e|] eqn:E; [eauto | |].
  - exists 0%R. unfold getDoubleVal, setDoubleVal. cbn [p_double]. unfold lookup_or_throw. rewrite sm_find_set_same. reflexivity.
  - unfold getDoubleVal, lookup_or_throw in E. destruct (sm_find _ _); discriminate.
Qed.
Lemma sm_set_in : forall {V} (m : smap V) k v x w, In (x, w) (sm_set k v m) -> (x = k /\ w = v) \/ In (x, w) m.
Proof.
  intros V m k v. induction m as [|[k' v'] m IH]; intros x w I; cbn in I.
  - destruct I as [E|[]]. injection E as -> ->. auto.
  - destruct (String.compare k k') eqn:CE.
    + apply String.compare_eq_iff in CE. subst k'. destruct I as [E|I]; [injection E as -> ->; auto | right; right; exact I].
    + destruct I as [E|I]; [injection E as -> ->; auto | right; exact I].
    + destruct I as [E|I]; [right; left; exact E|]. destruct (IH x w I) as [H|H]; [auto | right; right; exact H].
Qed.
Lemma inv_step : forall g c, inv g -> inv (do_call g c).
Proof.
  intros g c [A B C D]. destruct c; cbn [do_call];
    try (constructor; [exact A | exact B | exact C | exact D]).
  - constructor; [exact A | exact B | exact C|]. cbn [set_calo g_calo]. intros s' o' F.
    destruct (calo_slot_eqb_spec s' s) as [->|]; [|apply D; exact F]. intros E. injection E as <-. unfold as_stored. rewrite F. cbn [snd]. apply angle_there.
  - constructor; cbn [set_generic g_generic g_mat g_calo]; [apply sm_set_sorted; exact A | exact B | exact C | exact D].
  - destruct (sm_find (sm_name m) (g_mat g)) eqn:E; [constructor; assumption|].
    constructor; cbn [set_mat g_generic g_mat g_calo]; [exact A | apply sm_set_sorted; exact B | | exact D].
    intros k m' I. apply sm_set_in in I. destruct I as [[-> ->]|I]; [reflexivity | apply C; exact I].
Qed.
Lemma inv_new : inv new_content.
Proof. constructor; cbn; try constructor; try discriminate. intros k m []. Qed.
Lemma inv_built : forall h, inv (built h).
Proof.
  intros h. unfold built. generalize inv_new. generalize new_content. induction h as [|c h IH]; intros g I; [exact I|]. cbn. apply IH. apply inv_step. exact I.
Qed.

(** ** The document *)
Definition detectors_of (tpc : list xnode) (calos : list (list xnode)) (vxd ftd sit set tp si gen : list xnode) : list xnode :=
  tpc ++ List.concat calos ++ vxd ++ ftd ++ sit ++ set ++ tp ++ si ++ gen.
Definition root_of (name : string) (field dets mats : list xnode) : xnode :=
  XElem "gear" []
    ([XElem "global" (attrs_of [("detectorName", name)]%string) []; XComment root_comment] ++ field ++
     [XElem "detectors" [] dets; XElem "materials" [] mats]).

Lemma name_written_clean : forall n, clean n -> clean (written_name n).
Proof. intros n C. unfold written_name. destruct (String.eqb n ""); [apply plain_clean; reflexivity | exact C]. Qed.
Lemma global_ok : forall n, clean n -> pairs_ok [("detectorName", n)]%string.
Proof. intros n C. pairs. Qed.

Lemma root_writable : forall name field dets mats, clean name -> nodes_ok field -> nodes_ok dets -> nodes_ok mats -> writable (root_of name field dets mats).
Proof.
  intros name field dets mats C F D M. unfold root_of.
  assert (CO : writable (XComment root_comment)).
  { constructor.
    - assert (C0 : clean root_comment) by (apply plain_clean; reflexivity). apply C0.
    - intros H. apply has_char_iff in H. discriminate H.
    - intros H. apply (contains_byte_of _ "-" "->" _ eq_refl), has_char_iff in H. discriminate H. }
  apply (elem_writable "gear" []); [reflexivity | apply no_pairs | |].
  - intros x I. apply in_app_or in I. destruct I as [[<-|[<-|[]]]|I].
    + apply leaf_writable; [reflexivity | apply global_ok; exact C].
    + exact CO.
    + apply in_app_or in I. destruct I as [I|[<-|[<-|[]]]]; [apply F; exact I | |]; apply (node_writable _ []); try reflexivity; try apply no_pairs; assumption.
  - cbn [app no_adjacent_text]. assert (T : no_adjacent_text (field ++ [XElem "detectors" [] dets; XElem "materials" [] mats])).
    { apply elements_no_text. intros x I. apply in_app_or in I. destruct I as [I|[<-|[<-|[]]]]; [apply F; exact I | reflexivity..]. }
    exact T.
Qed.

(** reading the document *)
Lemma load_root : forall name field dets mats, clean name -> nodes_ok field -> nodes_ok dets -> nodes_ok mats ->
  (field = [] \/ exists f, field = [f] /\ Value f = "BField"%string /\ is_elem f = true) ->
  (forall x, In x dets -> Value x = "detector"%string) -> (forall x, In x mats -> Value x = "material"%string) ->
  load (Some (print_doc [root_of name field dets mats])) =
  sthen (sthen (match field with f :: _ => hand_over (set_name new_content name) (field_fromXML f) (set_field (set_name new_content name))
                       | [] => SOk (set_name new_content name) tt end)
               (each read_detector dets)) (each read_material mats).
Proof.
  intros name field dets mats C F D M FF DV MV. unfold load.
  rewrite document_kept; [|discriminate | intros x [<-|[]]; split; [apply root_writable; assumption | intros s; discriminate]].
  cbn [find is_elem root_of]. unfold read_root.
  change (FirstChild "global" (root_of name field dets mats)) with (Some (XElem "global" (attrs_of [("detectorName", name)]%string) [])).
  cbv iota. rewrite lookup by (apply global_ok; exact C). cbn [assoc String.eqb Ascii.eqb Bool.eqb hand_over sthen].
  assert (E1 : FirstChild "detectors" (root_of name field dets mats) = Some (XElem "detectors" [] dets)).
  { destruct FF as [->|[f [-> [V E]]]]; [reflexivity|]. unfold FirstChild, root_of. cbn [children app find Value]. rewrite V. reflexivity. }
  assert (E2 : FirstChild "materials" (root_of name field dets mats) = Some (XElem "materials" [] mats)).
  { destruct FF as [->|[f [-> [V E]]]]; [reflexivity|]. unfold FirstChild, root_of. cbn [children app find Value]. rewrite V. reflexivity. }
  assert (E3 : FirstChild "BField" (root_of name field dets mats) = match field with f :: _ => Some f | [] => None end).
  { destruct FF as [->|[f [-> [V E]]]]; [reflexivity|]. unfold FirstChild, root_of. cbn [children app find Value]. rewrite V. reflexivity. }
  assert (E4 : FirstChild "GDMLFile" (root_of name field dets mats) = None).
  { destruct FF as [->|[f [-> [V E]]]]; [reflexivity|]. unfold FirstChild, root_of. cbn [children app find Value]. rewrite V. reflexivity. }
  assert (E5 : IterateChildren "detector" (XElem "detectors" [] dets) = dets).
  { unfold IterateChildren. apply filter_all. intros x I. rewrite (DV x I). reflexivity. }
  assert (E6 : IterateChildren "material" (XElem "materials" [] mats) = mats).
  { unfold IterateChildren. apply filter_all. intros x I. rewrite (MV x I). reflexivity. }
  rewrite E1, E2, E3, E4, E5, E6. destruct FF as [->|[f [-> [V E]]]].
  - cbn [sthen]. reflexivity.
  - cbv iota. rewrite E. destruct (hand_over _ _ _) as [g1 []|? ?|]; cbn [sthen]; [|reflexivity..]. reflexivity.
Qed.

(** ** What is loaded *)
Definition put_generics (l : smap params) (g : content) : content := fold_left (fun g kp => set_generic g (fst kp) (back (snd kp))) l g.
Definition final (g0 : content) : content :=
  add_mats (map snd (g_mat g0))
    (put_generics (g_generic g0)
      (store set_si (val si_toXML si_fromXML (g_si g0))
        (store set_tp (val tp_toXML tp_fromXML (g_tp g0))
          (store (put_zp SET) (val zp_toXML zp_fromXML (g_zp g0 SET))
            (store (put_zp SIT) (val zp_toXML zp_fromXML (g_zp g0 SIT))
              (store set_ftd (val ftd_toXML ftd_fromXML (g_ftd g0))
                (store (put_zp VXD) (val zp_toXML zp_fromXML (g_zp g0 VXD))
                  (put_calos g0 calo_order
                    (store set_tpc (val tpc_toXML tpc_fromXML (g_tpc g0))
                      (store set_field (val field_toXML field_fromXML (g_field g0))
                        (set_name new_content (written_name (g_name g0)))))))))))))%list.

Lemma all_slots : forall s, In s calo_order.
Proof. intros []; cbn; tauto. Qed.

Lemma simple_does : forall {O} (write : O -> result xnode) read put name type o ns, clean name -> clean type ->
  (forall x, o = Some x -> good write read [] x) -> (forall g n, handle g type name n = hand_over g (read n) (put g)) ->
  String.eqb type "VXDParameters" = false -> detector_elem write name type o = Ok ns ->
  does (each read_detector ns) (comes_back write read o) (store put (val write read o)) /\ nodes_ok ns /\ (forall x, In x ns -> Value x = "detector"%string).
Proof.
  intros O write read put name type o ns CN CT G H V E. apply (slot_does write read put [] (label_pairs name type) name type); try assumption.
  - apply no_pairs.
  - apply label_ok; assumption.
  - apply labels_none.
  - reflexivity.
  - reflexivity.
Qed.

Lemma doc_parts : forall g doc, geometry_doc g = Ok doc -> exists field tpc calos vxd ftd sit set tp si gen mats,
  (match g_field g with None => Ok [] | Some f => tried (field_toXML f) end) = Ok field /\
  detector_elem tpc_toXML "TPC" "TPCParameters" (g_tpc g) = Ok tpc /\ rall (calo_elem g) calo_order = Ok calos /\
  zp_elem g VXD = Ok vxd /\ detector_elem ftd_toXML "FTD" "FTDParameters" (g_ftd g) = Ok ftd /\ zp_elem g SIT = Ok sit /\ zp_elem g SET = Ok set /\
  detector_elem tp_toXML "TrackerPlanes" "TrackerPlanesParameters" (g_tp g) = Ok tp /\
  detector_elem si_toXML "SiPlanes" "SiPlanesParameters" (g_si g) = Ok si /\ rall generic_elem (g_generic g) = Ok gen /\
  rall smat_toXML (map snd (g_mat g)) = Ok mats /\
  doc = [root_of (written_name (g_name g)) field (detectors_of tpc calos vxd ftd sit set tp si gen) mats].
Proof.
  intros g doc H. unfold geometry_doc in H. peel H. apply ok_inj in H. subst doc. repeat eexists; eassumption.
Qed.

Lemma field_written : forall g field, (forall o, g_field g = Some o -> params_ok (snd o)) ->
  (match g_field g with None => Ok [] | Some f => tried (field_toXML f) end) = Ok field ->
  nodes_ok field /\ (field = [] \/ exists f, field = [f] /\ Value f = "BField"%string /\ is_elem f = true) /\
  forall g1, match field with f :: _ => hand_over g1 (field_fromXML f) (set_field g1) | [] => SOk g1 tt end =
    SOk (store set_field (val field_toXML field_fromXML (g_field g)) g1) tt.
Proof.
  intros g field P E. destruct (g_field g) as [[b ps]|].
  - specialize (P (b, ps) eq_refl). cbn [snd] in P. destruct (ok_params ps P) as [S T]. rewrite field_element in E by exact S. cbn [tried] in E. injection E as <-.
    split; [|split].
    + intros x [<-|[]]. split; [|reflexivity]. apply node_writable; [reflexivity | apply field_pairs_ok | apply nodes_params; exact P].
    + right. eexists. split; [reflexivity|]. split; reflexivity.
    + intros g1. cbn [val]. rewrite (reload_field b ps S T). pose proof (field_read b ps S T) as R. cbn [app] in R. rewrite R. reflexivity.
  - injection E as <-. split; [intros x []|]. split; [left; reflexivity | intros g1; reflexivity].
Qed.

Lemma mat_nodes_ok : forall l, (forall m, In m l -> clean (sm_name m)) -> nodes_ok (map mat_node l).
Proof.
  intros l C x I. apply in_map_iff in I. destruct I as [m [<- M]]. split; [|reflexivity]. apply leaf_writable; [reflexivity | apply smat_pairs_ok; apply C; exact M].
Qed.
Lemma names_are_keys : forall g, inv g -> map sm_name (map snd (g_mat g)) = sm_keys (g_mat g).
Proof.
  intros g I. unfold sm_keys. rewrite map_map. apply map_ext_in. intros [k m] M. cbn. apply (inv_name g I). exact M.
Qed.
Lemma mats_clean : forall g, inv g -> texts_ok g -> forall m, In m (map snd (g_mat g)) -> clean (sm_name m).
Proof.
  intros g I (_ & _ & _ & _ & _ & _ & _ & _ & _ & T) m M. apply in_map_iff in M. destruct M as [[k m'] [<- M]]. cbn [snd].
  rewrite (inv_name g I k m' M). apply (T k m'). apply (proj2 (sm_find_some_iff _ _ (inv_mat g I) m')). exact M.
Qed.
Lemma generic_clean : forall g, inv g -> texts_ok g -> forall kp, In kp (g_generic g) -> clean (fst kp) /\ params_ok (snd kp).
Proof.
  intros g I (_ & _ & _ & _ & _ & _ & _ & _ & T & _) [k p] M. apply (T k p). apply (proj2 (sm_find_some_iff _ _ (inv_generic g I) p)). exact M.
Qed.

(** what storing leaves alone *)
Lemma store_keeps : forall {O A} (f : content -> A) (put : content -> O -> content) v g, (forall g y, f (put g y) = f g) -> f (store put v g) = f g.
Proof. intros O A f put [y|] g H; [apply H | reflexivity]. Qed.
Lemma calos_keep : forall {A} (f : content -> A) g0 l g, (forall g s y, f (set_calo g s y) = f g) -> f (put_calos g0 l g) = f g.
Proof.
  intros A f g0 l. unfold put_calos. induction l as [|s l IH]; intros g H; [reflexivity|]. cbn [fold_left]. rewrite IH by exact H.
  apply store_keeps. intros g1 y. apply H.
Qed.
Lemma generics_keep : forall {A} (f : content -> A) l g, (forall g k p, f (set_generic g k p) = f g) -> f (put_generics l g) = f g.
Proof.
  intros A f l. unfold put_generics. induction l as [|kp l IH]; intros g H; [reflexivity|]. cbn [fold_left]. rewrite IH by exact H. apply H.
Qed.
Ltac kept f := repeat first [rewrite (generics_keep f) by reflexivity | rewrite (calos_keep f) by reflexivity | rewrite (store_keeps f) by reflexivity].

Lemma file_loads : forall g file, inv g -> texts_ok g -> createXMLFile g = Ok file ->
  forall g', load (Some file) = SOk g' tt <-> all_come_back g /\ g' = final g.
Proof.
  intros g file I T E g'. unfold createXMLFile in E. destruct (geometry_doc g) as [doc| |] eqn:GD; try discriminate. cbn [rmap] in E. apply ok_inj in E. subst file.
  destruct (doc_parts g doc GD) as [field [tpc [calos [vxd [ftd [sit [set [tp [si [gen [mats [E1 [E2 [E3 [E4 [E5 [E6 [E7 [E8 [E9 [E10 [E11 ->]]]]]]]]]]]]]]]]]]]]]].
  pose proof (mats_clean g I T) as MC. pose proof (generic_clean g I T) as GC.
  destruct T as (T1 & T2 & T3 & T4 & T5 & T6 & T7 & T8 & _ & _).
  destruct (field_written g field T2 E1) as [F1 [F2 F3]].
  destruct (slot_does tpc_toXML tpc_fromXML set_tpc tpc_pairs tpc_labels "TPC" "TPCParameters" (g_tpc g) tpc tpc_pairs_ok tpc_labels_ok labels_tpc eq_refl eq_refl) as [D2 [N2 V2]].
  { intros x X. destruct (T3 x X). apply tpc_good; assumption. }
  { reflexivity. } { reflexivity. } { exact E2. }
  destruct (calos_does g calo_order calos T4 E3) as [D3 [N3 V3]].
  destruct (zp_does g VXD vxd (T5 VXD) E4) as [D4 [N4 V4]].
  assert (Cl : forall s, allb plain_char s = true -> clean s) by (intros s; apply plain_clean).
  destruct (simple_does ftd_toXML ftd_fromXML set_ftd "FTD" "FTDParameters" (g_ftd g) ftd ltac:(apply Cl; reflexivity) ltac:(apply Cl; reflexivity)
    (fun x X => ftd_good x (T6 x X)) ltac:(reflexivity) eq_refl E5) as [D5 [N5 V5]].
  destruct (zp_does g SIT sit (T5 SIT) E6) as [D6 [N6 V6]]. destruct (zp_does g SET set (T5 SET) E7) as [D7 [N7 V7]].
  destruct (simple_does tp_toXML tp_fromXML set_tp "TrackerPlanes" "TrackerPlanesParameters" (g_tp g) tp ltac:(apply Cl; reflexivity) ltac:(apply Cl; reflexivity)
    (fun x X => tp_good x (proj1 (T7 x X)) (proj2 (T7 x X))) ltac:(reflexivity) eq_refl E8) as [D8 [N8 V8]].
  destruct (simple_does si_toXML si_fromXML set_si "SiPlanes" "SiPlanesParameters" (g_si g) si ltac:(apply Cl; reflexivity) ltac:(apply Cl; reflexivity)
    (fun x X => si_good x (T8 x X)) ltac:(reflexivity) eq_refl E9) as [D9 [N9 V9]].
  rewrite generic_written in E10 by (intros kp K; apply GC; exact K). injection E10 as <-.
  destruct (generic_nodes_ok (g_generic g) GC) as [N10 V10]. pose proof (generic_does (g_generic g) GC) as D10.
  rewrite mats_written in E11. injection E11 as <-.
  pose proof (does_app _ _ _ _ _ _ _ D2 (does_app _ _ _ _ _ _ _ D3 (does_app _ _ _ _ _ _ _ D4 (does_app _ _ _ _ _ _ _ D5 (does_app _ _ _ _ _ _ _ D6
    (does_app _ _ _ _ _ _ _ D7 (does_app _ _ _ _ _ _ _ D8 (does_app _ _ _ _ _ _ _ D9 D10)))))))) as DD.
  fold (detectors_of tpc calos vxd ftd sit set tp si (map generic_node (g_generic g))) in DD.
  rewrite load_root.
  2:{ apply name_written_clean. exact T1. } 2:{ exact F1. }
  2:{ unfold detectors_of. repeat (apply nodes_app; [assumption|]). exact N10. }
  2:{ apply mat_nodes_ok. exact MC. } 2:{ exact F2. }
  2:{ unfold detectors_of. intros x X. repeat (apply in_app_or in X; destruct X as [X|X]; [auto|]). auto. }
  2:{ intros x X. apply in_map_iff in X. destruct X as [m [<- _]]. reflexivity. }
  rewrite F3. cbn [sthen].
  set (g1 := store set_field _ _) in *.
  set (dets := detectors_of _ _ _ _ _ _ _ _ _) in *.
  assert (MR : forall g2, g_mat g2 = [] -> each read_material (map mat_node (map snd (g_mat g))) g2 = SOk (add_mats (map snd (g_mat g)) g2) tt).
  { intros g2 M. apply mats_read; [exact MC | rewrite (names_are_keys g I); apply (inv_mat g I) | rewrite M; intros x m []]. }
  assert (PP : all_come_back g <->
    (comes_back tpc_toXML tpc_fromXML (g_tpc g) /\ (forall s, In s calo_order -> calo_back g s) /\ comes_back zp_toXML zp_fromXML (g_zp g VXD) /\
     comes_back ftd_toXML ftd_fromXML (g_ftd g) /\ comes_back zp_toXML zp_fromXML (g_zp g SIT) /\ comes_back zp_toXML zp_fromXML (g_zp g SET) /\
     comes_back tp_toXML tp_fromXML (g_tp g) /\ comes_back si_toXML si_fromXML (g_si g) /\ True)).
  { unfold all_come_back. split.
    - intros (A1 & A2 & A3 & A4 & A5 & A6). repeat split; auto. intros s _. apply A2.
    - intros (A1 & A2 & A3 & A4 & A5 & A6 & A7 & A8 & _). repeat split; auto; [intros s; apply A2; apply all_slots | intros []; assumption]. }
  rewrite PP. clear PP.
  match type of DD with does _ ?P ?F => set (P0 := P) in *; set (F0 := F) in * end.
  assert (GM : g_mat (F0 g1) = []).
  { unfold F0. cbv beta. match goal with |- g_mat (fold_left ?f ?l ?x) = _ => change (fold_left f l x) with (put_generics l x) end. kept g_mat. unfold g1. kept g_mat. reflexivity. }
  assert (FF : add_mats (map snd (g_mat g)) (F0 g1) = final g) by reflexivity.
  specialize (DD g1). split.
  - intros H. destruct (each read_detector dets g1) as [g2 []|? ?|] eqn:E; try discriminate. destruct (proj1 (DD g2) eq_refl) as [P ->].
    cbn [sthen] in H. rewrite MR in H by exact GM. injection H as <-. split; [exact P | exact FF].
  - intros [P ->]. rewrite (proj2 (DD (F0 g1)) (conj P eq_refl)). cbn [sthen]. rewrite MR by exact GM. rewrite FF. reflexivity.
Qed.
