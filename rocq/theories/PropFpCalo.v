(** Property theorems for C90: the layers of a calorimeter in double arithmetic. *)
From Coq Require Import ZArith List Reals Lra Lia.
From Flocq Require Core.Raux.
From Verif Require Import Base RBase NumModel NumSpec NumProofs FpModel FpProofs FpMapProofs FpMapCases FpRectCases CaloModel CaloSpec CaloProofs
  FpCaloModel FpCaloSpec FpCaloProofs.
Import ListNotations.
Open Scope R_scope.

(** C90: there is one layer for each call that makes one, and all but the distance is as given, unrounded; a positioned
    layer is where it was put, an added one at 0 if it is the first. *)
Theorem C90_layers : forall c h i k, fresh c -> nth_error (layers_of h) i = Some k ->
  let v := getLayerLayout (dcalo_run c h) in
  getNLayers v = Z.of_nat (List.length (layers_of h)) /\
  match k with
  | CAdd t c0 c1 a => getThickness v (Z.of_nat i) = Ok t /\ getCellSize0 v (Z.of_nat i) = Ok c0 /\ getCellSize1 v (Z.of_nat i) = Ok c1 /\
                      getAbsorberThickness v (Z.of_nat i) = Ok a /\ (i = O -> getDistance v (Z.of_nat i) = Ok 0)
  | CPos d t c0 c1 a => getThickness v (Z.of_nat i) = Ok t /\ getCellSize0 v (Z.of_nat i) = Ok c0 /\ getCellSize1 v (Z.of_nat i) = Ok c1 /\
                        getAbsorberThickness v (Z.of_nat i) = Ok a /\ getDistance v (Z.of_nat i) = Ok d
  | CExt => False
  end.
Proof.
  intros c h i k F E v. subst v. unfold getLayerLayout. rewrite (drun_fresh c h F). split.
  { unfold getNLayers. now rewrite dappended_length. }
  destruct (dappended_nth h 0 i k E) as (L & A & B). unfold getThickness, getCellSize0, getCellSize1, getAbsorberThickness, getDistance.
  destruct k; [| |exact B]; subst L; repeat split; intros; apply at_nth; (eexists; split; [exact A|]); subst; reflexivity.
Qed.
Print Assumptions C90_layers.

(** C90: an added layer starts at the double nearest to the end of the layer before: no double is closer, and the gap
    or overlap is at most 2^-53 of the distance. *)
Theorem C90_nearest : forall c h i d t d' t', fresh c -> Forall double_args h -> is_added h (S i) ->
  let v := getLayerLayout (dcalo_run c h) in
  layer_is v i d t -> layer_is v (S i) d' t' ->
  nearest_double (d + t) d' /\ Rabs (d' - (d + t)) <= u * Rabs (d + t).
Proof.
  intros c h i d t d' t' F D A v X Y. subst v. unfold getLayerLayout in *. rewrite (step_next c h i d t d' t' F A X Y).
  destruct (layer_double c h i d t F D X) as [D1 D2]. split; [apply to_double_nearest|now apply sum_rel].
Qed.
Print Assumptions C90_nearest.

(** C90: a layer of non-negative thickness is not followed by one that starts before it. *)
Theorem C90_order : forall c h i d t d' t', fresh c -> Forall double_args h -> is_added h (S i) ->
  let v := getLayerLayout (dcalo_run c h) in
  layer_is v i d t -> layer_is v (S i) d' t' -> (0 <= t -> d <= d') /\ (t <= 0 -> d' <= d).
Proof.
  intros c h i d t d' t' F D A v X Y. subst v. unfold getLayerLayout in *. rewrite (step_next c h i d t d' t' F A X Y).
  destruct (layer_double c h i d t F D X) as [D1 D2]. split; intros T; [apply FpRectProofs2.rnd_lo|apply FpRectProofs2.rnd_up]; auto; lra.
Qed.
Print Assumptions C90_order.

(** C90: it starts after it if the thickness is more than 2^-53 of the distance of its end ... *)
Theorem C90_strict : forall c h i d t d' t', fresh c -> Forall double_args h -> is_added h (S i) ->
  let v := getLayerLayout (dcalo_run c h) in
  layer_is v i d t -> layer_is v (S i) d' t' -> 0 <= d -> u * (d + t) < t -> d < d'.
Proof.
  intros c h i d t d' t' F D A v X Y H0 H1. subst v. unfold getLayerLayout in *. rewrite (step_next c h i d t d' t' F A X Y).
  destruct (layer_double c h i d t F D X) as [D1 D2]. pose proof (sum_rel d t D1 D2) as E. pose proof u_small.
  assert (0 < t). { destruct (Rlt_or_le 0 t) as [|N]; [assumption|]. exfalso. assert (0 <= u * d) by (apply Rmult_le_pos; lra).
    assert (0 <= (1 - u) * (- t)) by (apply Rmult_le_pos; lra). lra. }
  rewrite (Rabs_pos_eq (d + t)) in E by lra. apply Core.Raux.Rabs_le_inv in E. lra.
Qed.
Print Assumptions C90_strict.
(** ... but with half of that, or less, at the same distance, although it has a thickness *)
Theorem C90_same_place_refuted : forall c h i d t d' t', fresh c -> Forall double_args h -> is_added h (S i) ->
  let v := getLayerLayout (dcalo_run c h) in
  layer_is v i d t -> layer_is v (S i) d' t' -> 0 <= t <= d * / 18014398509481984 -> d' = d.
Proof.
  intros c h i d t d' t' F D A v X Y H. subst v. unfold getLayerLayout in *. rewrite (step_next c h i d t d' t' F A X Y).
  destruct (layer_double c h i d t F D X) as [D1 D2]. now apply stuck.
Qed.
Print Assumptions C90_same_place_refuted.

(** C90: if all layers are added and none has a negative thickness, layer i starts at the sum of the thicknesses before
    it, up to a factor between (1 - 2^-53)^i and (1 + 2^-53)^i. *)
Theorem C90_sum : forall c h i d t, fresh c -> Forall double_args h -> Forall added h -> Forall (fun k => 0 <= thick k) h ->
  layer_is (getLayerLayout (dcalo_run c h)) i d t ->
  total (firstn i (layers_of h)) * (1 - u) ^ i <= d <= total (firstn i (layers_of h)) * (1 + u) ^ i.
Proof.
  intros c h i d t F D A T X. unfold getLayerLayout in X. rewrite (drun_fresh c h F) in X. apply layer_is_nth in X. destruct X as (L & X & <- & _).
  assert (G := dappended_sum h 0 0 0 D A T double_0 (Rle_refl 0) ltac:(cbn; lra) i L X). rewrite Rplus_0_l in G. exact G.
Qed.
Print Assumptions C90_sum.

(** C90: if, computed without rounding, every layer ends at a double, nothing is rounded: the calorimeter is the same
    in every respect ... *)
Theorem C90_exact : forall c h, fresh c -> (forall n, is_double (ends 0 (firstn n h))) -> dcalo_run c h = calo_run c h.
Proof. exact run_same_fresh. Qed.
Print Assumptions C90_exact.
(** ... in particular if all distances and thicknesses are whole numbers of one unit 2^e, and no layer ends 2^53 units
    or more away. *)
Theorem C90_units : forall e c h, fresh c -> (-1074 <= e)%Z ->
  Forall (fun k => match k with
    | CAdd t _ _ _ => exists k, t = IZR k * powerRZ 2 e
    | CPos d t _ _ _ => (exists k, d = IZR k * powerRZ 2 e) /\ (exists k, t = IZR k * powerRZ 2 e)
    | CExt => True end) h ->
  (forall n, Rabs (ends 0 (firstn n h)) < powerRZ 2 53 * powerRZ 2 e) -> dcalo_run c h = calo_run c h.
Proof.
  intros e c h F He HU HB. apply C90_exact; [exact F|]. intros n.
  assert (HU' : Forall (fun k => match k with
    | CAdd t _ _ _ => exists k, t = IZR k * powerRZ 2 e
    | CPos d t _ _ _ => (exists k, d = IZR k * powerRZ 2 e) /\ (exists k, t = IZR k * powerRZ 2 e)
    | CExt => True end) (firstn n h)).
  { apply Forall_forall. intros k I. rewrite Forall_forall in HU. apply HU. rewrite <- (firstn_skipn n h). apply in_or_app. now left. }
  destruct (ends_units e _ 0 HU') as [k K]. rewrite Rmult_0_l in K. specialize (HB n). rewrite K in *.
  exists k, e. split; [reflexivity|]. split; [|exact He].
  rewrite Rabs_mult, (Rabs_pos_eq (powerRZ 2 e)) in HB by (apply powerRZ_le; lra).
  apply Rmult_lt_reg_r in HB; [|apply powerRZ_lt; lra]. rewrite <- abs_IZR in HB. change 2 with (IZR 2) in HB.
  apply lt_IZR. replace (IZR (2 ^ 53)) with (powerRZ 2 53); [exact HB|]. replace (IZR (2 ^ 53)) with 9007199254740992 by reflexivity. unfold powerRZ. simpl. lra.
Qed.
Print Assumptions C90_units.

(** C90: the outer end in the extent is where a layer added next would start, to the last bit. *)
Theorem C90_extent : forall c h t c0 c1 a, fresh c -> layers_of h <> [] ->
  let w := dcalo_run c h in
  exists w' e, dgetExtent w = SOk w' e /\ getLayerLayout w' = getLayerLayout w /\
  exists x, getDistance (daddLayer (getLayerLayout w) t c0 c1 a) (getNLayers (getLayerLayout w)) = Ok x /\
  match c_type c with
  | BARREL => nth_error e 1 = Some x
  | ENDCAP => nth_error e 3 = Some x
  end.
Proof.
  intros c h t c0 c1 a F N w. destruct (dext_ok w) as (w' & e & E & EL & ET & _ & _ & _ & H).
  assert (NE : c_layout w <> []).
  { unfold w. rewrite (drun_fresh c h F). intros Z. apply (f_equal (@List.length _)) in Z. rewrite dappended_length in Z.
    destruct (layers_of h); [congruence|discriminate]. }
  destruct (H NE) as [-> X]. exists w', (c_extent w'). split; [exact E|]. split; [exact EL|]. exists (dnext (c_layout w)). split.
  - unfold getDistance, getNLayers, getLayerLayout. apply at_nth. unfold daddLayer. rewrite nth_error_app2, Nat.sub_diag by lia.
    cbn. eexists. split; reflexivity.
  - assert (TY : c_type w = c_type c /\ exists x0 x1 x2 x3, c_extent w = [x0; x1; x2; x3]).
    { unfold w. clear -F. assert (FE : exists x0 x1 x2 x3, c_extent c = [x0; x1; x2; x3]).
      { destruct F as [(?&?&?&?&->)|(?&?&?&?&?&->)]; cbn; do 4 eexists; reflexivity. }
      clear F. revert c FE. induction h as [|k h IH]; intros c FE; [cbn; auto|].
      change (dcalo_run c (k :: h)) with (dcalo_run (dcalo_do c k) h).
      assert (G : c_type (dcalo_do c k) = c_type c /\ exists x0 x1 x2 x3, c_extent (dcalo_do c k) = [x0; x1; x2; x3]).
      { destruct k; [cbn; auto|cbn; auto|]. cbn. destruct (dext_ok c) as (c' & v & -> & _ & ET & _ & _ & G0 & G1). split; [exact ET|].
        destruct (c_layout c) eqn:Q; [destruct (G0 eq_refl) as [-> _]; exact FE|]. destruct G1 as [_ G1]; [congruence|].
        destruct FE as (x0 & x1 & x2 & x3 & FE). rewrite G1, FE. destruct (c_type c); cbn; do 4 eexists; reflexivity. }
      destruct G as [G1 G2]. destruct (IH (dcalo_do c k) G2) as [I1 I2]. split; [congruence|exact I2]. }
    destruct TY as [TY (x0 & x1 & x2 & x3 & TE)]. rewrite X, TE, TY. destruct (c_type c); reflexivity.
Qed.
Print Assumptions C90_extent.

(** The doubles nearest to 0.1, 0.2 and 0.3. *)
Definition d01 : R := 3602879701896397 / 36028797018963968.
Definition d02 : R := 3602879701896397 / 18014398509481984.
Definition d03 : R := 5404319552844595 / 18014398509481984.
Lemma d01_double : is_double d01.
Proof. apply (double_frac 3602879701896397 (-55)); [unfold d01, powerRZ; simpl; lra|reflexivity|lia]. Qed.
Lemma d02_double : is_double d02.
Proof. apply (double_frac 3602879701896397 (-54)); [unfold d02, powerRZ; simpl; lra|reflexivity|lia]. Qed.
Lemma d03_double : is_double d03.
Proof. apply (double_frac 5404319552844595 (-54)); [unfold d03, powerRZ; simpl; lra|reflexivity|lia]. Qed.
Definition up3 : list calo_call := [CAdd d01 1 1 0; CAdd d02 1 1 0; CAdd d03 1 1 0; CAdd 1 1 1 0].
Definition down3 : list calo_call := [CAdd d03 1 1 0; CAdd d02 1 1 0; CAdd d01 1 1 0; CAdd 1 1 1 0].

(** C90 (shown to fail): the same layers in another order end elsewhere. *)
Theorem C90_order_matters_refuted : exists c t1 t2 t3 d d', fresh c /\ Forall double_args up3 /\ Forall double_args down3 /\
  up3 = [t1; t2; t3; CAdd 1 1 1 0] /\ down3 = [t3; t2; t1; CAdd 1 1 1 0] /\
  layer_is (getLayerLayout (dcalo_run c up3)) 3 d 1 /\ layer_is (getLayerLayout (dcalo_run c down3)) 3 d' 1 /\ d' < d.
Proof.
  pose proof d01_double as D1. pose proof d02_double as D2. pose proof d03_double as D3.
  assert (D4 : is_double 1) by (apply (double_frac 1 0); [cbn; lra|reflexivity|lia]).
  assert (FF : fresh (new_barrel 0 1 8 0)) by (left; do 4 eexists; reflexivity).
  assert (S1 : to_double (d01 + d02) = 1351079888211149 / 4503599627370496).
  { unfold d01, d02. replace (1351079888211149 / 4503599627370496) with (5404319552844596 / 18014398509481984) by lra.
    apply (rnd_is 5404319552844596 18014398509481984 54); [lia|lia|reflexivity|near]. }
  assert (S2 : to_double (1351079888211149 / 4503599627370496 + d03) = 5404319552844596 / 9007199254740992).
  { unfold d03. apply (rnd_is 5404319552844596 9007199254740992 53); [lia|lia|reflexivity|near]. }
  assert (S3 : to_double (d03 + d02) = 1 / 2).
  { replace (d03 + d02) with (1 / 2) by (unfold d03, d02; lra). apply rnd_id. apply (double_frac 1 (-1)); [unfold powerRZ; simpl; lra|reflexivity|lia]. }
  assert (S4 : to_double (1 / 2 + d01) = 5404319552844595 / 9007199254740992).
  { unfold d01. apply (rnd_is 5404319552844595 9007199254740992 53); [lia|lia|reflexivity|near]. }
  exists (new_barrel 0 1 8 0), (CAdd d01 1 1 0), (CAdd d02 1 1 0), (CAdd d03 1 1 0), (5404319552844596 / 9007199254740992), (5404319552844595 / 9007199254740992).
  split; [exact FF|]. split; [repeat constructor; assumption|]. split; [repeat constructor; assumption|]. do 2 (split; [reflexivity|]).
  unfold getLayerLayout. rewrite !(drun_fresh _ _ FF). unfold up3, down3. cbn [dappended].
  change (to_double (0 + d01)) with (fadd 0 d01). unfold fadd. rewrite !Rplus_0_l, !(rnd_id d01 D1), !(rnd_id d03 D3), S1, S2, S3, S4.
  split; [|split; [|lra]]; apply layer_is_nth; eexists; (split; [reflexivity|]); split; reflexivity.
Qed.
Print Assumptions C90_order_matters_refuted.

(** Cases that meet the hypotheses: a barrel whose second layer was positioned; a layer that is lost. *)
Example demo_next : exists d t d' t', fresh (new_barrel 10 100 8 0) /\ Forall double_args [CAdd d03 1 1 0; CPos 5 d01 1 1 0; CExt; CAdd d02 1 1 0] /\
  is_added [CAdd d03 1 1 0; CPos 5 d01 1 1 0; CExt; CAdd d02 1 1 0] 2 /\
  layer_is (getLayerLayout (dcalo_run (new_barrel 10 100 8 0) [CAdd d03 1 1 0; CPos 5 d01 1 1 0; CExt; CAdd d02 1 1 0])) 1 d t /\
  layer_is (getLayerLayout (dcalo_run (new_barrel 10 100 8 0) [CAdd d03 1 1 0; CPos 5 d01 1 1 0; CExt; CAdd d02 1 1 0])) 2 d' t' /\ d < d'.
Proof.
  assert (FF : fresh (new_barrel 10 100 8 0)) by (left; do 4 eexists; reflexivity).
  assert (FD : Forall double_args [CAdd d03 1 1 0; CPos 5 d01 1 1 0; CExt; CAdd d02 1 1 0]).
  { repeat constructor; try apply d03_double; try apply d01_double; try apply d02_double. apply (double_frac 5 0); [cbn; lra|reflexivity|lia]. }
  assert (FA : is_added [CAdd d03 1 1 0; CPos 5 d01 1 1 0; CExt; CAdd d02 1 1 0] 2) by (do 4 eexists; reflexivity).
  assert (L1 : layer_is (getLayerLayout (dcalo_run (new_barrel 10 100 8 0) [CAdd d03 1 1 0; CPos 5 d01 1 1 0; CExt; CAdd d02 1 1 0])) 1 5 d01).
  { unfold getLayerLayout. rewrite (drun_fresh _ _ FF). apply layer_is_nth. eexists. split; [reflexivity|]. split; reflexivity. }
  assert (L2 : layer_is (getLayerLayout (dcalo_run (new_barrel 10 100 8 0) [CAdd d03 1 1 0; CPos 5 d01 1 1 0; CExt; CAdd d02 1 1 0])) 2 (to_double (5 + d01)) d02).
  { unfold getLayerLayout. rewrite (drun_fresh _ _ FF). apply layer_is_nth. eexists. split; [reflexivity|]. split; reflexivity. }
  do 4 eexists. do 3 (split; [eassumption|]). split; [exact L1|]. split; [exact L2|].
  apply (C90_strict _ _ 1 _ _ _ _ FF FD FA L1 L2); [lra|]. unfold u, d01. lra.
Qed.
Example demo_lost : fresh (new_endcap 0 1 10 8 0) /\ Forall double_args [CPos 1024 (/ 17592186044416) 1 1 0; CAdd 1 1 1 0] /\
  is_added [CPos 1024 (/ 17592186044416) 1 1 0; CAdd 1 1 1 0] 1 /\
  layer_is (getLayerLayout (dcalo_run (new_endcap 0 1 10 8 0) [CPos 1024 (/ 17592186044416) 1 1 0; CAdd 1 1 1 0])) 0 1024 (/ 17592186044416) /\
  0 < / 17592186044416 <= 1024 * / 18014398509481984.
Proof.
  split; [right; do 5 eexists; reflexivity|]. split.
  { repeat constructor; [apply (double_frac 1024 0)|apply (double_frac 1 (-44))|apply (double_frac 1 0)]; try reflexivity; try lia; unfold powerRZ; simpl; lra. }
  split; [do 4 eexists; reflexivity|]. split; [|lra]. apply layer_is_nth. eexists. split; [reflexivity|]. split; reflexivity.
Qed.
Example demo_units : forall n, Rabs (ends 0 (firstn n [CAdd (21/8) 1 1 0; CPos 100 (1/8) 1 1 0; CExt; CAdd 3 1 1 0])) < powerRZ 2 53 * powerRZ 2 (-3).
Proof.
  intros n. replace (powerRZ 2 53 * powerRZ 2 (-3)) with 1125899906842624 by (unfold powerRZ; simpl; lra).
  do 5 (destruct n as [|n]; [cbn; apply Rabs_def1; lra|]). rewrite firstn_all2 by (cbn; lia). cbn. apply Rabs_def1; lra.
Qed.
