(** Proofs about loading any file (C39). *)
From Coq Require Import ZArith List String Ascii Bool Reals Lia Lra Sorted.
From Verif Require Import Base BaseProofs XmlModel HxModel ParamsModel ParXmlModel CaloModel CaloXmlModel TrkXmlModel TpcXmlModel GearXmlModel GearXmlSpec GearXmlProofs GearXmlProofs2.
Import ListNotations.
Open Scope list_scope.

(** ** Names *)
Lemma prefix_app : forall t s, String.prefix t s = true <-> exists b, s = String.append t b.
Proof.
  induction t as [|c t IH]; intros s.
  - split; [intros _; exists s; destruct s; reflexivity | intros _; destruct s; reflexivity].
  - destruct s as [|d s]; cbn [String.prefix String.append]; [split; [discriminate | intros [b H]; discriminate]|]. destruct (ascii_dec c d) as [->|N].
    + rewrite IH. split; intros [b H]; exists b; [rewrite H; reflexivity | injection H as H; exact H].
    + split; [discriminate | intros [b H]; injection H as H _; congruence].
Qed.
Lemma has_iff : forall t s, has t s = true <-> exists a b, s = String.append a (String.append t b).
Proof.
  intros t s. induction s as [|c s IH]; cbn [has]; rewrite orb_true_iff, prefix_app.
  - split; [intros [[b H]|H]; [exists ""%string, b; exact H | discriminate] | intros [a [b H]]; left; destruct a; [exists b; exact H | discriminate]].
  - rewrite IH. split.
    + intros [[b H]|[a [b H]]]; [exists ""%string, b; exact H | exists (String c a), b; rewrite H; reflexivity].
    + intros [[|x a] [b H]]; [left; exists b; exact H|]. right. injection H as _ H. exists a, b. exact H.
Qed.
Lemma lower_app : forall a b, CaloXmlModel.lower (String.append a b) = String.append (CaloXmlModel.lower a) (CaloXmlModel.lower b).
Proof. induction a as [|c a IH]; intros b; [reflexivity|]. cbn [CaloXmlModel.lower String.append]. rewrite IH. reflexivity. Qed.
Lemma small_iff : forall c d, small_letter c d <-> d = (if ((65 <=? byte c) && (byte c <=? 90))%Z then chr (byte c + 32) else c).
Proof.
  intros c d. unfold small_letter. destruct ((65 <=? byte c) && (byte c <=? 90))%Z%bool eqn:E.
  - assert (R : (65 <= byte c <= 90)%Z) by (apply andb_true_iff in E; destruct E as [E1 E2]; apply Z.leb_le in E1; apply Z.leb_le in E2; lia).
    assert (B : byte (chr (byte c + 32)) = (byte c + 32)%Z).
    { unfold byte, chr. rewrite N_ascii_embedding; rewrite Z.mod_small by (fold (byte c); lia); [rewrite Z2N.id by (fold (byte c); lia); reflexivity|]. fold (byte c). lia. }
    split; [intros [[_ H]|[H _]]; [|tauto] | intros ->; left; split; [exact R | exact B]].
    rewrite <- B in H. unfold byte in H. apply N2Z.inj in H. rewrite <- (ascii_N_embedding d), H, ascii_N_embedding. reflexivity.
  - assert (R : ~ (65 <= byte c <= 90)%Z) by (intros [A B]; apply Z.leb_le in A; apply Z.leb_le in B; rewrite A, B in E; discriminate).
    split; [intros [[H _]|[_ H]]; [tauto | exact H] | intros ->; right; auto].
Qed.
Lemma mentions_iff : forall t n, has t (CaloXmlModel.lower n) = true <-> mentions t n.
Proof.
  intros t n. rewrite has_iff. split.
  - intros [a [b H]]. revert a H. induction n as [|c n IH]; intros [|x a] H.
    + exists ""%string, ""%string, ""%string. destruct t; [split; [reflexivity | constructor] | discriminate].
    + discriminate.
    + cbn [String.append] in H. clear IH. exists ""%string. cbn [String.append]. revert t H. generalize (String c n). clear c n. intros n.
      induction n as [|c n IH]; intros t H; (destruct t as [|d t]; [eexists ""%string, _; split; [reflexivity | constructor]|]); [discriminate|].
      cbn [CaloXmlModel.lower String.append] in H. injection H as H1 H2. destruct (IH t H2) as [w [b' [-> W]]]. exists (String c w), b'. split; [reflexivity|].
      constructor; [apply small_iff; symmetry; exact H1 | exact W].
    + cbn [CaloXmlModel.lower String.append] in H. injection H as H1 H2. destruct (IH a H2) as [a' [w [b' [-> W]]]]. exists (String c a'), w, b'. split; [reflexivity | exact W].
  - intros [a [w [b [-> W]]]]. exists (CaloXmlModel.lower a), (CaloXmlModel.lower b). rewrite !lower_app. f_equal. f_equal.
    induction W as [|c d s t L W IH]; [reflexivity|]. cbn [CaloXmlModel.lower]. rewrite IH. f_equal. symmetry. apply small_iff. exact L.
Qed.
Lemma mentions_not : forall t n, has t (CaloXmlModel.lower n) = false <-> ~ mentions t n.
Proof. intros t n. rewrite <- mentions_iff. destruct (has _ _); intuition congruence. Qed.

Lemma calo_place_iff : forall n k s, calo_place n (match k with BARREL => true | ENDCAP => false end) = Some s <-> calo_named n k s.
Proof.
  intros n k s. unfold calo_place, calo_named. rewrite <- !mentions_iff.
  destruct (has "ecal" _), (has "plug" _), (has "yoke" _), (has "lcal" _), (has "lhcal" _), (has "beamcal" _), (has "hcal" _), (has "ring" _), k;
    (split; [intros H; try discriminate H; injection H as <-; intuition congruence | intuition (try congruence)]).
Qed.
Lemma zp_place_iff : forall n s, zp_place n = Some s <-> zp_named n s.
Proof.
  intros n s. unfold zp_place, zp_named. rewrite <- !mentions_iff.
  destruct (has "vxd" _), (has "sit" _), (has "set" _); (split; [intros H; try discriminate H; injection H as <-; intuition congruence | intuition (try congruence)]).
Qed.

(** ** Detectors *)
Lemma run_app : forall a b g, fold_left do_call (a ++ b) g = fold_left do_call b (fold_left do_call a g).
Proof. intros. apply fold_left_app. Qed.
Definition run (cs : list gcall) (g : content) : content := fold_left do_call cs g.

Lemma det_iff : forall x g g', read_detector g x = SOk g' tt <-> exists cs, det_says x cs /\ g' = run cs g.
Proof.
  intros x g g'. unfold read_detector. split.
  - intros H. destruct (getXMLAttribute x "name") as [n| |] eqn:N; try discriminate.
    destruct (getXMLAttribute x "geartype") as [t| |] eqn:T.
    2:{ injection H as <-. exists []. split; [|reflexivity]. apply (says_untyped _ n N). unfold attr. intros t. congruence. }
    2:{ injection H as <-. exists []. split; [|reflexivity]. apply (says_untyped _ n N). unfold attr. intros t. congruence. }
    unfold handle, hand_over in H. destruct (String.eqb_spec t "VXDParameters") as [->|NV].
    { cbn [String.eqb Ascii.eqb Bool.eqb] in H. destruct (zp_fromXML x) as [o| |] eqn:R; try discriminate. injection H as <-.
      destruct (zp_place n) as [s|] eqn:P.
      - eexists. split; [eapply says_ladders; [exact N | exact T | right; reflexivity | exact R | apply zp_place_iff; exact P] | reflexivity].
      - exists []. split; [|reflexivity]. eapply says_no_ladders; [exact N | exact T | right; reflexivity | exact R |]. intros s Z. apply zp_place_iff in Z. congruence. }
    destruct (String.eqb_spec t "GearParameters") as [->|].
    { destruct (parameters_fromXML x) as [o| |] eqn:R; try discriminate. injection H as <-. eexists. split; [eapply says_params; eassumption | reflexivity]. }
    destruct (String.eqb_spec t "TPCParameters") as [->|].
    { destruct (tpc_fromXML x) as [o| |] eqn:R; try discriminate. injection H as <-. eexists. split; [eapply says_tpc; eassumption | reflexivity]. }
    destruct (String.eqb_spec t "CalorimeterParameters") as [->|].
    { destruct (calo_fromXML x) as [o| |] eqn:R; try discriminate. injection H as <-.
      destruct (calo_place n _) as [s|] eqn:P.
      - eexists. split; [eapply says_calo; [exact N | exact T | exact R | apply calo_place_iff; exact P] | reflexivity].
      - exists []. split; [|reflexivity]. eapply says_no_calo; [exact N | exact T | exact R |]. intros s Z. apply calo_place_iff in Z. congruence. }
    destruct (String.eqb_spec t "ZPlanarParameters") as [->|].
    { destruct (zp_fromXML x) as [o| |] eqn:R; try discriminate. injection H as <-.
      destruct (zp_place n) as [s|] eqn:P.
      - eexists. split; [eapply says_ladders; [exact N | exact T | left; reflexivity | exact R | apply zp_place_iff; exact P] | reflexivity].
      - exists []. split; [|reflexivity]. eapply says_no_ladders; [exact N | exact T | left; reflexivity | exact R |]. intros s Z. apply zp_place_iff in Z. congruence. }
    destruct (String.eqb_spec t "FTDParameters") as [->|].
    { destruct (ftd_fromXML x) as [o| |] eqn:R; try discriminate. injection H as <-. eexists. split; [eapply says_ftd; eassumption | reflexivity]. }
    destruct (String.eqb_spec t "TrackerPlanesParameters") as [->|].
    { destruct (tp_fromXML x) as [o| |] eqn:R; try discriminate. injection H as <-. eexists. split; [eapply says_tp; eassumption | reflexivity]. }
    destruct (String.eqb_spec t "SiPlanesParameters") as [->|].
    { destruct (si_fromXML x) as [o| |] eqn:R; try discriminate. injection H as <-. eexists. split; [eapply says_si; eassumption | reflexivity]. }
    discriminate.
  - intros [cs [S ->]]. unfold attr in *. destruct S as [n N T|n p N T R|n t N T R|n o s N T R P|n o N T R P|n ty o s N T TY R P|n ty o N T TY R P|n o N T R|n o N T R|n o N T R]; unfold attr in N, T; rewrite N.
    + destruct (getXMLAttribute x "geartype") as [t| |] eqn:G; [destruct (T t eq_refl) | reflexivity..].
    + rewrite T. unfold handle. cbn [String.eqb Ascii.eqb Bool.eqb]. rewrite R. reflexivity.
    + rewrite T. unfold handle. cbn [String.eqb Ascii.eqb Bool.eqb]. rewrite R. reflexivity.
    + rewrite T. unfold handle. cbn [String.eqb Ascii.eqb Bool.eqb]. rewrite R. cbn [hand_over]. rewrite (proj2 (calo_place_iff n _ s) P). reflexivity.
    + rewrite T. unfold handle. cbn [String.eqb Ascii.eqb Bool.eqb]. rewrite R. cbn [hand_over].
      destruct (calo_place n _) as [s|] eqn:PP; [|reflexivity]. apply calo_place_iff in PP. destruct (P s PP).
    + destruct TY as [-> | ->]; rewrite T; unfold handle; cbn [String.eqb Ascii.eqb Bool.eqb]; rewrite R; cbn [hand_over]; rewrite (proj2 (zp_place_iff n s) P); reflexivity.
    + assert (PP : zp_place n = None) by (destruct (zp_place n) as [s|] eqn:PP; [apply zp_place_iff in PP; destruct (P s PP) | reflexivity]).
      destruct TY as [-> | ->]; rewrite T; unfold handle; cbn [String.eqb Ascii.eqb Bool.eqb]; rewrite R; cbn [hand_over]; rewrite PP; reflexivity.
    + rewrite T. unfold handle. cbn [String.eqb Ascii.eqb Bool.eqb]. rewrite R. reflexivity.
    + rewrite T. unfold handle. cbn [String.eqb Ascii.eqb Bool.eqb]. rewrite R. reflexivity.
    + rewrite T. unfold handle. cbn [String.eqb Ascii.eqb Bool.eqb]. rewrite R. reflexivity.
Qed.
(** a failing element leaves the manager alone *)
Lemma det_throw : forall x g g' e, read_detector g x = SThrow g' e -> g' = g /\ forall cs, ~ det_says x cs.
Proof.
  intros x g g' e H. split.
  - unfold read_detector in H. destruct (getXMLAttribute x "name") as [n| |]; [|injection H as <- _; reflexivity | discriminate].
    destruct (getXMLAttribute x "geartype") as [t| |]; try discriminate. unfold handle, hand_over in H.
    repeat match type of H with (if ?b then _ else _) = _ => destruct b end;
      repeat match type of H with match ?r with _ => _ end = _ => destruct r end; try discriminate; injection H as <- _; reflexivity.
  - intros cs S. assert (X : read_detector g x = SOk (run cs g) tt) by (apply det_iff; eauto). congruence.
Qed.
Lemma dets_iff : forall l g g', each read_detector l g = SOk g' tt <-> exists cs, dets_say l cs /\ g' = run cs g.
Proof.
  induction l as [|x l IH]; intros g g'; cbn [each].
  - split; [intros H; injection H as <-; exists []; split; [constructor | reflexivity] | intros [cs [S ->]]; inversion S; reflexivity].
  - unfold sthen. split.
    + intros H. destruct (read_detector g x) as [g1 []|? ?|] eqn:E; try discriminate. apply det_iff in E. destruct E as [a [A ->]].
      apply IH in H. destruct H as [b [B ->]]. exists (a ++ b). split; [constructor; assumption|]. unfold run. rewrite run_app. reflexivity.
    + intros [cs [S ->]]. inversion S as [|? ? a b A B]; subst. rewrite (proj2 (det_iff x g (run a g)) (ex_intro _ a (conj A eq_refl))).
      apply IH. exists b. split; [exact B|]. unfold run. apply run_app.
Qed.
Lemma dets_throw : forall l g g' e, each read_detector l g = SThrow g' e -> exists a x b cs, l = a ++ x :: b /\ dets_say a cs /\ g' = run cs g /\ forall cs, ~ det_says x cs.
Proof.
  induction l as [|x l IH]; intros g g' e H; cbn [each] in H; [discriminate|]. unfold sthen in H. destruct (read_detector g x) as [g1 []|g1 e1|] eqn:E; [| |discriminate].
  - apply det_iff in E. destruct E as [c [C ->]]. apply IH in H. destruct H as [a [y [b [cs [-> [S [-> N]]]]]]]. exists (x :: a), y, b, (c ++ cs).
    split; [reflexivity|]. split; [constructor; assumption|]. split; [unfold run; rewrite run_app; reflexivity | exact N].
  - injection H as <- <-. apply det_throw in E. destruct E as [-> N]. exists [], x, l, []. split; [reflexivity|]. split; [constructor|]. split; [reflexivity | exact N].
Qed.

(** ** Materials *)
Definition mat_keys (g : content) : list string := sm_keys (g_mat g).
Lemma reg_new : forall g m, ~ In (sm_name m) (mat_keys g) -> do_call g (RegisterMaterial m) = set_mat g (sm_name m) m.
Proof. intros g m N. cbn [do_call]. rewrite (proj2 (sm_find_none_iff (g_mat g) (sm_name m)) N). reflexivity. Qed.
Lemma mat_step : forall x g g', read_material g x = SOk g' tt <->
  exists m, is_elem x = true /\ smat_fromXML x = Ok m /\ ~ In (sm_name m) (mat_keys g) /\ g' = do_call g (RegisterMaterial m).
Proof.
  intros x g g'. unfold read_material. split.
  - intros H. destruct (is_elem x); [|discriminate]. destruct (smat_fromXML x) as [m| |]; try discriminate.
    destruct (sm_find (sm_name m) (g_mat g)) eqn:F; [discriminate|]. injection H as <-. apply sm_find_none_iff in F. exists m. repeat split; auto. symmetry. apply reg_new. exact F.
  - intros [m [-> [-> [N ->]]]]. rewrite (proj2 (sm_find_none_iff (g_mat g) (sm_name m)) N), reg_new by exact N. reflexivity.
Qed.
Lemma keys_after : forall g m k, In k (mat_keys (do_call g (RegisterMaterial m))) <-> In k (mat_keys g) \/ k = sm_name m.
Proof.
  intros g m k. cbn [do_call]. destruct (sm_find (sm_name m) (g_mat g)) eqn:F.
  - split; [auto | intros [H| ->]; [exact H|]]. destruct (in_dec string_dec (sm_name m) (mat_keys g)) as [I|N]; [exact I|]. apply (sm_find_none_iff (g_mat g)) in N. congruence.
  - unfold mat_keys, set_mat. cbn [g_mat]. rewrite sm_keys_set_in. tauto.
Qed.
Lemma mats_iff : forall l g g', each read_material l g = SOk g' tt <->
  exists ms, mats_say l ms /\ (forall m, In m ms -> ~ In (sm_name m) (mat_keys g)) /\ g' = run (map RegisterMaterial ms) g.
Proof.
  induction l as [|x l IH]; intros g g'; cbn [each].
  - split.
    + intros H. injection H as <-. exists []. split; [split; constructor|]. split; [intros m [] | reflexivity].
    + intros [ms [[F _] [_ ->]]]. inversion F. reflexivity.
  - unfold sthen. split.
    + intros H. destruct (read_material g x) as [g1 []|? ?|] eqn:E; try discriminate. apply mat_step in E. destruct E as [m [E [R [N ->]]]].
      apply IH in H. destruct H as [ms [[F ND] [D ->]]]. exists (m :: ms). split; [split|split].
      * constructor; auto.
      * cbn. constructor; [|exact ND]. intros I. apply in_map_iff in I. destruct I as [m' [EQ I]]. apply (D m' I). apply keys_after. right. exact EQ.
      * intros m' [<-|I]; [exact N|]. intros K. apply (D m' I). apply keys_after. left. exact K.
      * reflexivity.
    + intros [ms [[F ND] [D ->]]]. inversion F as [|? m ? ms' [E R] F']; subst. cbn in ND. inversion ND as [|? ? NI ND']; subst.
      assert (ST : read_material g x = SOk (do_call g (RegisterMaterial m)) tt).
      { apply mat_step. exists m. repeat split; auto. apply D. left. reflexivity. }
      rewrite ST. apply IH. exists ms'. split; [split; assumption|]. split; [|reflexivity]. intros m' I K. apply keys_after in K. destruct K as [K|K].
      * apply (D m' (or_intror I) K).
      * apply NI. rewrite <- K. apply in_map. exact I.
Qed.
Lemma mats_throw : forall l g g' e, each read_material l g = SThrow g' e -> exists a x b ms, l = a ++ x :: b /\ mats_say a ms /\
  (forall m, In m ms -> ~ In (sm_name m) (mat_keys g)) /\ g' = run (map RegisterMaterial ms) g /\
  forall m, smat_fromXML x = Ok m -> In (sm_name m) (mat_keys g) \/ In (sm_name m) (map sm_name ms).
Proof.
  induction l as [|x l IH]; intros g g' e H; cbn [each] in H; [discriminate|]. unfold sthen in H. destruct (read_material g x) as [g1 []|g1 e1|] eqn:E; [| |discriminate].
  - apply mat_step in E. destruct E as [m [E [R [N ->]]]]. apply IH in H. destruct H as [a [y [b [ms [-> [[F ND] [D [-> Y]]]]]]]].
    exists (x :: a), y, b, (m :: ms). split; [reflexivity|]. split; [split|split; [|split]].
    + constructor; auto.
    + cbn. constructor; [|exact ND]. intros I. apply in_map_iff in I. destruct I as [m' [EQ I]]. apply (D m' I). apply keys_after. right. exact EQ.
    + intros m' [<-|I]; [exact N|]. intros K. apply (D m' I). apply keys_after. left. exact K.
    + reflexivity.
    + intros m' M. destruct (Y m' M) as [K|K]; [|right; right; exact K]. apply keys_after in K. destruct K as [K|K]; [left; exact K | right; left; symmetry; exact K].
  - injection H as <- <-. exists [], x, l, []. split; [reflexivity|]. split; [split; constructor|]. split; [intros m []|]. unfold read_material in E.
    destruct (is_elem x); [|discriminate]. destruct (smat_fromXML x) as [m| |] eqn:R; [| |discriminate].
    + destruct (sm_find (sm_name m) (g_mat g)) eqn:F; [|discriminate]. injection E as <- _. split; [reflexivity|]. intros m' M. injection M as <-. left.
      destruct (in_dec string_dec (sm_name m) (mat_keys g)) as [I|NI]; [exact I|]. apply (sm_find_none_iff (g_mat g)) in NI. congruence.
    + injection E as <- _. split; [reflexivity | intros m' M; discriminate].
Qed.

(** ** The root element *)
Lemma name_step : forall root g, (match FirstChild "global" root with
         | Some n => hand_over new_content (getXMLAttribute n "detectorName") (set_name new_content)
         | None => SOk new_content tt
         end) = SOk g tt <-> exists cs, name_says root cs /\ g = built cs.
Proof.
  intros root g. unfold name_says. destruct (FirstChild "global" root) as [n|].
  - unfold hand_over, attr. destruct (getXMLAttribute n "detectorName") as [v| |] eqn:V.
    + split.
      * intros H. injection H as <-. exists [SetDetectorName v]. split; [right; eauto | reflexivity].
      * intros [cs [[[X _]|[n' [v' [X [Y ->]]]]] ->]]; [discriminate|]. injection X as <-. rewrite V in Y. injection Y as <-. reflexivity.
    + split; [discriminate|]. intros [cs [[[X _]|[n' [v' [X [Y ->]]]]] _]]; [discriminate|]. injection X as <-. congruence.
    + split; [discriminate|]. intros [cs [[[X _]|[n' [v' [X [Y ->]]]]] _]]; [discriminate|]. injection X as <-. congruence.
  - split.
    + intros H. injection H as <-. exists []. split; [left; auto | reflexivity].
    + intros [cs [[[_ ->]|[n' [v' [X _]]]] ->]]; [reflexivity | discriminate].
Qed.
Lemma field_step : forall root g0 g, (match FirstChild "BField" root with
             | Some n => if is_elem n then hand_over g0 (field_fromXML n) (set_field g0) else SUB
             | None => SOk g0 tt
             end) = SOk g tt <-> exists cs, field_says root cs /\ g = run cs g0.
Proof.
  intros root g0 g. unfold field_says. destruct (FirstChild "BField" root) as [n|].
  - unfold hand_over. destruct (is_elem n) eqn:IE.
    2:{ split; [discriminate|]. intros [cs [[[X _]|[n' [v' [X [Y _]]]]] _]]; [discriminate|]. injection X as <-. congruence. }
    destruct (field_fromXML n) as [v| |] eqn:V.
    + split.
      * intros H. injection H as <-. exists [SetBField v]. split; [right; eauto 6 | reflexivity].
      * intros [cs [[[X _]|[n' [v' [X [_ [Y ->]]]]]] ->]]; [discriminate|]. injection X as <-. rewrite V in Y. injection Y as <-. reflexivity.
    + split; [discriminate|]. intros [cs [[[X _]|[n' [v' [X [_ [Y _]]]]]] _]]; [discriminate|]. injection X as <-. congruence.
    + split; [discriminate|]. intros [cs [[[X _]|[n' [v' [X [_ [Y _]]]]]] _]]; [discriminate|]. injection X as <-. congruence.
  - split.
    + intros H. injection H as <-. exists []. split; [left; auto | reflexivity].
    + intros [cs [[[_ ->]|[n' [v' [X _]]]] ->]]; [reflexivity | discriminate].
Qed.
Lemma gdml_step : forall root g0 g, (match FirstChild "GDMLFile" root with
             | Some n => hand_over g0 (getXMLAttribute n "name") (fun _ => g0)
             | None => SOk g0 tt
             end) = SOk g tt <-> gdml_named root /\ g = g0.
Proof.
  intros root g0 g. unfold gdml_named, attr. destruct (FirstChild "GDMLFile" root) as [n|].
  - unfold hand_over. destruct (getXMLAttribute n "name") as [v| |] eqn:V.
    + split; [intros H; injection H as <-; split; [intros n' X; injection X as <-; eauto | reflexivity] | intros [_ ->]; reflexivity].
    + split; [discriminate|]. intros [X _]. destruct (X n eq_refl). congruence.
    + split; [discriminate|]. intros [X _]. destruct (X n eq_refl). congruence.
  - split; [intros H; injection H as <-; split; [discriminate | reflexivity] | intros [_ ->]; reflexivity].
Qed.

(** no materials before the materials *)
Definition no_mat (c : gcall) : bool := match c with RegisterMaterial _ => false | _ => true end.
Lemma no_mat_keys : forall cs g, forallb no_mat cs = true -> mat_keys (run cs g) = mat_keys g.
Proof.
  induction cs as [|c cs IH]; intros g H; [reflexivity|]. cbn in H. apply andb_true_iff in H. destruct H as [H1 H2]. cbn [run fold_left]. 
  change (mat_keys (run cs (do_call g c)) = mat_keys g). rewrite IH by exact H2. destruct c; try discriminate; reflexivity.
Qed.
Lemma det_no_mat : forall d cs, det_says d cs -> forallb no_mat cs = true.
Proof. intros d cs S. destruct S; reflexivity. Qed.
Lemma dets_no_mat : forall l cs, dets_say l cs -> forallb no_mat cs = true.
Proof. intros l cs S. induction S; [reflexivity|]. rewrite forallb_app, IHS. rewrite (det_no_mat _ _ H). reflexivity. Qed.
Lemma name_no_mat : forall r cs, name_says r cs -> forallb no_mat cs = true.
Proof. intros r cs [[_ ->]|[n [v [_ [_ ->]]]]]; reflexivity. Qed.
Lemma field_no_mat : forall r cs, field_says r cs -> forallb no_mat cs = true.
Proof. intros r cs [[_ ->]|[n [v [_ [_ [_ ->]]]]]]; reflexivity. Qed.
Lemma run_built : forall a b, run b (built a) = built (a ++ b).
Proof. intros a b. unfold run, built. symmetry. apply run_app. Qed.
Lemma no_keys : forall r a b c l, name_says r a -> field_says r b -> dets_say l c -> mat_keys (built (a ++ b ++ c)) = [].
Proof.
  intros r a b c l A B C. change (built (a ++ b ++ c)) with (run (a ++ b ++ c) new_content). rewrite no_mat_keys; [reflexivity|].
  rewrite !forallb_app, (name_no_mat _ _ A), (field_no_mat _ _ B), (dets_no_mat _ _ C). reflexivity.
Qed.

Lemma sthen_ok : forall r f g, sthen r f = SOk g tt <-> exists g1, r = SOk g1 tt /\ f g1 = SOk g tt.
Proof.
  intros [g1 []|g1 e|] f g; cbn; split.
  - intros H. eauto.
  - intros [g2 [H1 H2]]. injection H1 as <-. exact H2.
  - discriminate.
  - intros [g2 [H1 _]]. discriminate.
  - discriminate.
  - intros [g2 [H1 _]]. discriminate.
Qed.
Lemma sthen_throw : forall r f g e, sthen r f = SThrow g e <-> r = SThrow g e \/ exists g1, r = SOk g1 tt /\ f g1 = SThrow g e.
Proof.
  intros [g1 []|g1 e1|] f g e; cbn; split.
  - intros H. eauto.
  - intros [H|[g2 [H1 H2]]]; [discriminate|]. injection H1 as <-. exact H2.
  - auto.
  - intros [H|[g2 [H1 _]]]; [exact H | discriminate].
  - discriminate.
  - intros [H|[g2 [H1 _]]]; discriminate.
Qed.

Lemma mats_of_root : forall root g, (match FirstChild "materials" root with None => SOk g tt | Some m => each read_material (IterateChildren "material" m) g end) =
  each read_material (material_elems root) g.
Proof. intros root g. unfold material_elems. destruct (FirstChild "materials" root); reflexivity. Qed.

Lemma root_iff : forall root g, read_root root = SOk g tt <-> exists cs, file_says root cs /\ g = built cs.
Proof.
  intros root g. unfold read_root. rewrite sthen_ok. split.
  - intros [g1 [H1 H]]. apply name_step in H1. destruct H1 as [name [HN ->]]. destruct (FirstChild "detectors" root) as [d|] eqn:FD; [|discriminate].
    rewrite sthen_ok in H. destruct H as [g2 [H2 H]]. apply field_step in H2. destruct H2 as [field [HF ->]].
    rewrite sthen_ok in H. destruct H as [g3 [H3 H]]. apply gdml_step in H3. destruct H3 as [HG ->].
    rewrite sthen_ok in H. destruct H as [g4 [H4 H]]. apply dets_iff in H4. destruct H4 as [dets [HD ->]]. rewrite mats_of_root in H.
    apply mats_iff in H. destruct H as [ms [HM [_ ->]]]. exists (name ++ field ++ dets ++ map RegisterMaterial ms). split.
    + exists name, field, dets, ms, d. auto 10.
    + rewrite !run_built. f_equal. rewrite <- !app_assoc. reflexivity.
  - intros [cs [(name & field & dets & ms & d & HN & HF & HG & FD & HD & HM & ->) ->]]. exists (built name). split; [apply name_step; eauto|]. rewrite FD.
    rewrite sthen_ok. exists (run field (built name)). split; [apply field_step; eauto|].
    rewrite sthen_ok. exists (run field (built name)). split; [apply gdml_step; auto|].
    rewrite sthen_ok. exists (run dets (run field (built name))). split; [apply dets_iff; eauto|]. rewrite mats_of_root. apply mats_iff. exists ms. split; [exact HM|].
    rewrite !run_built, <- !app_assoc. split; [|reflexivity]. intros m _. rewrite (no_keys _ _ _ _ _ HN HF HD). intros [].
Qed.

Lemma root_throw : forall root g e, read_root root = SThrow g e -> exists cs, says_until_failure root cs /\ g = built cs.
Proof.
  intros root g e. unfold read_root. rewrite sthen_throw. intros [H|[g1 [H1 H]]].
  { destruct (FirstChild "global" root) as [n|] eqn:FG; [|discriminate]. unfold hand_over in H. destruct (getXMLAttribute n "detectorName") as [v|e0|] eqn:V; try discriminate.
    injection H as <- _. exists []. split; [|reflexivity]. apply (fails_name _ n FG). unfold attr. intros v. congruence. }
  apply name_step in H1. destruct H1 as [name [HN ->]]. destruct (FirstChild "detectors" root) as [d|] eqn:FD.
  2:{ injection H as <- _. exists name. split; [apply fails_detectors; assumption | reflexivity]. }
  rewrite sthen_throw in H. destruct H as [H|[g2 [H2 H]]].
  { destruct (FirstChild "BField" root) as [n|] eqn:FB; [|discriminate]. destruct (is_elem n); [|discriminate]. unfold hand_over in H.
    destruct (field_fromXML n) as [v|e0|] eqn:V; try discriminate. injection H as <- _. exists name. split; [|reflexivity]. apply (fails_field _ name n HN FB). congruence. }
  apply field_step in H2. destruct H2 as [field [HF ->]]. rewrite sthen_throw in H. destruct H as [H|[g3 [H3 H]]].
  { destruct (FirstChild "GDMLFile" root) as [n|] eqn:FB; [|discriminate]. unfold hand_over in H.
    destruct (getXMLAttribute n "name") as [v|e0|] eqn:V; try discriminate. injection H as <- _. exists (name ++ field). split; [|apply run_built].
    apply (fails_gdml _ name field n HN HF FB). unfold attr. intros v. congruence. }
  apply gdml_step in H3. destruct H3 as [HG ->]. rewrite sthen_throw in H. destruct H as [H|[g4 [H4 H]]].
  { apply dets_throw in H. destruct H as [a [x [b [cs [E [S [-> N]]]]]]]. exists (name ++ field ++ cs). split; [|rewrite !run_built, <- app_assoc; reflexivity].
    apply (fails_detector _ name field d a x b cs); assumption. }
  apply dets_iff in H4. destruct H4 as [dets [HD ->]]. rewrite mats_of_root in H. apply mats_throw in H. destruct H as [a [x [b [ms [E [S [_ [-> N]]]]]]]].
  exists (name ++ field ++ dets ++ map RegisterMaterial ms). split; [|rewrite !run_built, <- !app_assoc; reflexivity].
  apply (fails_material _ name field d dets a x b ms); try assumption. intros m M. destruct (N m M) as [K|K]; [|exact K].
  rewrite !run_built, <- !app_assoc, (no_keys _ _ _ _ _ HN HF HD) in K. destruct K.
Qed.

(** ** The reader *)
Lemma loads_iff : forall s g, createGearMgr None (Some s) = SOk (Some g) g <-> exists root cs, root_element s root /\ file_says root cs /\ g = built cs.
Proof.
  intros s g. unfold createGearMgr, load, root_element. split.
  - intros H. destruct (LoadFile s) as [[l ok]| |] eqn:E; try discriminate. destruct ok; [|discriminate]. destruct (find is_elem l) as [root|] eqn:F; [|discriminate].
    destruct (read_root root) as [g1 []|? ?|] eqn:R; try discriminate. injection H as <-. apply root_iff in R. destruct R as [cs [S ->]]. exists root, cs. eauto.
  - intros [root [cs [[l [-> ->]] [S ->]]]]. rewrite (proj2 (root_iff root (built cs)) (ex_intro _ cs (conj S eq_refl))). reflexivity.
Qed.
Lemma fails_with : forall file st e, createGearMgr None file = SThrow st e -> exists cs, st = Some (built cs) /\
  (cs = [] \/ exists s root, file = Some s /\ root_element s root /\ says_until_failure root cs).
Proof.
  intros file st e. unfold createGearMgr, load, root_element. intros H. destruct file as [s|].
  2:{ injection H as <- _. exists []. split; [reflexivity | auto]. }
  destruct (LoadFile s) as [[l ok]| |] eqn:E; try discriminate. destruct ok.
  2:{ injection H as <- _. exists []. split; [reflexivity | auto]. }
  destruct (find is_elem l) as [root|] eqn:F.
  2:{ injection H as <- _. exists []. split; [reflexivity | auto]. }
  destruct (read_root root) as [g1 []|g1 e1|] eqn:R; try discriminate. injection H as <- _. apply root_throw in R. destruct R as [cs [S ->]].
  exists cs. split; [reflexivity|]. right. exists s, root. eauto.
Qed.
Lemma later_answers : forall g files, answers (Some g) files = map (fun _ => SOk (Some g) g) files.
Proof. intros g files. induction files as [|f files IH]; [reflexivity|]. cbn. rewrite IH. reflexivity. Qed.
Lemma answers_forever : forall f files st e, createGearMgr None f = SThrow st e -> exists g, st = Some g /\
  answers None (f :: files) = SThrow st e :: map (fun _ => SOk st g) files.
Proof.
  intros f files st e H. destruct (fails_with f st e H) as [cs [-> _]]. exists (built cs). split; [reflexivity|]. cbn [answers]. rewrite H, later_answers. reflexivity.
Qed.
Lemma unreadable_empty : forall s st e, (forall root, ~ root_element s root) -> createGearMgr None (Some s) = SThrow st e -> st = Some new_content.
Proof.
  intros s st e N H. destruct (fails_with _ _ _ H) as [cs [-> [->|[s' [root [E [R _]]]]]]]; [reflexivity|]. injection E as <-. destruct (N root R).
Qed.

(** ** What the getters answer *)
Lemma last_set_app : forall {A} (pick : gcall -> option A) a b, last_set pick (a ++ b) = match last_set pick b with Some x => Some x | None => last_set pick a end.
Proof. intros A pick a b. induction a as [|c a IH]; cbn; [destruct (last_set pick b); reflexivity|]. rewrite IH. destruct (last_set pick b); reflexivity. Qed.
Lemma first_set_app : forall {A} (pick : gcall -> option A) a b, first_set pick (a ++ b) = match first_set pick a with Some x => Some x | None => first_set pick b end.
Proof. intros A pick a b. induction a as [|c a IH]; cbn; [reflexivity|]. rewrite IH. destruct (pick c); reflexivity. Qed.
Lemma built_snoc : forall cs c, built (cs ++ [c]) = do_call (built cs) c.
Proof. intros cs c. unfold built. rewrite fold_left_app. reflexivity. Qed.
Lemma last_built : forall {A} (f : content -> option A) pick, (forall g c, f (do_call g c) = match pick c with Some x => Some x | None => f g end) ->
  f new_content = None -> forall cs, f (built cs) = last_set pick cs.
Proof.
  intros A f pick H N cs. induction cs as [|c cs IH] using rev_ind; [exact N|]. rewrite built_snoc, H, last_set_app, IH. cbn. destruct (pick c); reflexivity.
Qed.
Lemma stored_angle : forall s o, with_crossing_angle s o (as_stored s o).
Proof.
  intros s o. unfold with_crossing_angle, as_stored, forward. destruct s; try reflexivity; cbn [fst snd]; (split; [reflexivity|]); unfold with_angle;
    (split; [intros v ->; reflexivity | intros H; unfold getDoubleVal, lookup_or_throw in *; destruct (sm_find _ _) as [v|]; [destruct (H v eq_refl) | reflexivity]]).
Qed.
Lemma built_answers : forall cs, answers_of cs (built cs).
Proof.
  intros cs. unfold answers_of.
  assert (R : forall g m, forall A (f : content -> A), (forall g k m, f (set_mat g k m) = f g) -> f (do_call g (RegisterMaterial m)) = f g).
  { intros g m A f H. cbn [do_call]. destruct (sm_find _ _); [reflexivity | apply H]. }
  assert (X : forall {A} (f : content -> option A) pick, (forall g k m, f (set_mat g k m) = f g) ->
    (forall g c, no_mat c = true -> f (do_call g c) = match pick c with Some x => Some x | None => f g end) -> (forall m, pick (RegisterMaterial m) = None) ->
    f new_content = None -> f (built cs) = last_set pick cs).
  { intros A f pick H1 H2 H3 N. apply last_built; [|exact N]. intros g c. destruct (no_mat c) eqn:E; [apply H2; exact E|].
    destruct c; try discriminate E. rewrite H3. apply R. exact H1. }
  split.
  { assert (N : Some (g_name (built cs)) = match last_set (fun c => match c with SetDetectorName n => Some n | _ => None end) cs with Some n => Some n | None => Some ""%string end).
    { clear X. induction cs as [|c cs IH] using rev_ind; [reflexivity|]. rewrite built_snoc, last_set_app. cbn [last_set]. destruct c; try exact IH; [reflexivity|].
      rewrite (R _ _ _ g_name) by reflexivity. exact IH. }
    destruct (last_set _ cs); injection N as ->; reflexivity. }
  split; [apply X; try reflexivity; intros g []; reflexivity || discriminate|].
  split; [apply X; try reflexivity; intros g []; reflexivity || discriminate|].
  split.
  { intros s. assert (E : g_calo (built cs) s = last_set (fun c => match c with SetCalorimeter s' o => if calo_slot_eqb s s' then Some (as_stored s' o) else None | _ => None end) cs).
    { apply (X _ (fun g => g_calo g s)); try reflexivity. intros g c _. destruct c; try reflexivity.
      - cbn [do_call set_calo g_calo]. destruct (calo_slot_eqb s s0); reflexivity.
      - apply (R _ _ _ (fun g => g_calo g s)). reflexivity. }
    rewrite E. clear E X R. induction cs as [|c cs IH]; [reflexivity|]. cbn [last_set].
    destruct (last_set (fun c => match c with SetCalorimeter s' o => if calo_slot_eqb s s' then Some o else None | _ => None end) cs) as [o|].
    - destruct IH as [o' [W ->]]. exists o'. auto.
    - rewrite IH. destruct c; try reflexivity. destruct (calo_slot_eqb s s0) eqn:ES; [|reflexivity].
      assert (s = s0) by (destruct s, s0; try discriminate ES; reflexivity). subst s0. exists (as_stored s o). split; [apply stored_angle | reflexivity]. }
  split.
  { intros s. apply (X _ (fun g => g_zp g s)); try reflexivity. intros g c _. destruct c; try reflexivity.
      - cbn [do_call set_zp g_zp]. destruct (zp_slot_eqb s s0); reflexivity.
      - apply (R _ _ _ (fun g => g_zp g s)). reflexivity. }
  split; [apply X; try reflexivity; intros g []; reflexivity || discriminate|].
  split; [apply X; try reflexivity; intros g []; reflexivity || discriminate|].
  split; [apply X; try reflexivity; intros g []; reflexivity || discriminate|].
  split.
  { intros k. apply (X _ (fun g => sm_find k (g_generic g))); try reflexivity. intros g c _. destruct c as [| | | | | | | |k' p|]; try reflexivity.
    - cbn [do_call set_generic g_generic]. destruct (String.eqb_spec k k') as [->|N]; [apply sm_find_set_same | apply sm_find_set_other; congruence].
    - apply (R _ _ _ (fun g => sm_find k (g_generic g))). reflexivity. }
  intros k. clear X R. induction cs as [|c cs IH] using rev_ind; [reflexivity|]. rewrite built_snoc, first_set_app, <- IH. cbn [first_set].
  destruct c; cbn [do_call]; try (change (sm_find k (g_mat (built cs)) = match sm_find k (g_mat (built cs)) with Some x => Some x | None => None end);
    destruct (sm_find k (g_mat (built cs))); reflexivity).
  destruct (sm_find (sm_name m) (g_mat (built cs))) eqn:F.
  - destruct (sm_find k (g_mat (built cs))) eqn:F2; [reflexivity|]. destruct (String.eqb_spec k (sm_name m)) as [->|]; [congruence | reflexivity].
  - cbn [set_mat g_mat]. destruct (String.eqb_spec k (sm_name m)) as [->|N].
    + rewrite F. apply sm_find_set_same.
    + rewrite sm_find_set_other by congruence. destruct (sm_find k _); reflexivity.
Qed.
