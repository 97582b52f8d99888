(** Proofs about VersatileDiskRowLayout: indices, geometry, neighbours, lists, inside tests. *)
From Coq Require Import ZArith List String Bool Reals Lra Lia.
From Flocq Require Import Core.Raux.
From Verif Require Import Base RBase BitProofs DiskBase VdModel DiskSpec DiskProofs FpsProofs FpaProofs VdProofs.
From Verif Require RectSpec RectProofs5.
Import ListNotations.
Open Scope R_scope.

Lemma pad_range : forall rows k x j, vd_pad rows k x j ->
  (0 <= k < 65536)%Z /\ (0 <= j < 65536)%Z /\ (k < Z.of_nat (List.length rows))%Z.
Proof. intros rows k x j [Hk [Hj [Hn H]]]. apply nthZ_some in Hk. lia. Qed.

Lemma vd_row_of_val : forall rMin rows top l k x j, vrep rMin rows top l -> vd_pad rows k x j ->
  vd_getRowNumber l (code k j) = Ok k /\ vd_row_of l (code k j) = Ok (the_row k x).
Proof.
  intros rMin rows top l k x j HR HP. destruct (pad_range _ _ _ _ HP) as [Hk [Hj Hl]].
  assert (E : vd_getRowNumber l (code k j) = Ok k).
  { unfold vd_getRowNumber. rewrite code_row by lia. rewrite (vr_rows _ _ _ _ HR), rows_from_length.
    destruct (Z.ltb_spec k 0); [lia|]. destruct (Z.ltb_spec (Z.of_nat (List.length rows) - 1) k); [lia|]. reflexivity. }
  split; auto. unfold vd_row_of. rewrite E. cbn [rbind]. unfold sub. rewrite (vr_rows _ _ _ _ HR), rows_from_nthZ.
  destruct HP as [-> _]. reflexivity.
Qed.
Lemma vd_index_val : forall rMin rows top l k x j, vrep rMin rows top l -> vd_pad rows k x j ->
  vd_getPadIndex l k j = Ok (code k j).
Proof.
  intros rMin rows top l k x j HR HP. destruct (pad_range _ _ _ _ HP) as [Hk [Hj Hl]]. rewrite <- pack_code by lia.
  destruct HP as [Hx [Hj' _]]. eapply vd_index_low; [apply HR|eauto|lia].
Qed.
Lemma vd_index_lossless : forall rMin h l rows top, 0 <= rMin -> vd_made rMin h l -> vd_story rMin h rows top ->
  forall k x j, vd_pad rows k x j ->
  vd_getPadIndex l k j = Ok (code k j) /\ vd_getRowNumber l (code k j) = Ok k /\ disk_padNumber (code k j) = j /\
  forall k' x' j', vd_pad rows k' x' j' -> vd_getPadIndex l k' j' = Ok (code k j) -> k' = k /\ j' = j.
Proof.
  intros rMin h l rows top H0 HM HS k x j HP. pose proof (vd_rep _ _ _ _ _ H0 HM HS) as HR.
  split; [eapply vd_index_val; eauto|]. split; [eapply vd_row_of_val; eauto|].
  destruct (pad_range _ _ _ _ HP) as [Hk [Hj Hl]]. split; [apply code_pad; lia|].
  intros k' x' j' HP' E. rewrite (vd_index_val _ _ _ _ _ _ _ HR HP') in E. destruct (pad_range _ _ _ _ HP') as [Hk' [Hj' Hl']].
  assert (E' : code k' j' = code k j) by congruence. apply RectProofs5.code_inj in E'; lia.
Qed.
Lemma vd_index_refused : forall rMin h l rows top, 0 <= rMin -> vd_made rMin h l -> vd_story rMin h rows top ->
  (rows = [] -> forall k j, (-2147483648 <= k)%Z -> vd_getPadIndex l k j = UB) /\
  (rows <> [] -> (Z.of_nat (List.length rows) <= 2147483648)%Z -> forall k j, int_ok k ->
    (nthZ rows k = None -> exists e, vd_getPadIndex l k j = Throw e) /\
    (forall x, nthZ rows k = Some x ->
       ((va_nPads (snd x) <= j)%Z -> exists e, vd_getPadIndex l k j = Throw e) /\
       ((j < va_nPads (snd x))%Z -> exists p, vd_getPadIndex l k j = Ok p))).
Proof.
  intros rMin h l rows top H0 HM HS. pose proof (vd_rep _ _ _ _ _ H0 HM HS) as HR. split.
  - intros -> k j Hk. unfold vd_getPadIndex, vd_last_row, sub, nthZ. rewrite (vr_rows _ _ _ _ HR). cbn [rows_from].
    pose proof (Z.mod_pos_bound k 4294967296 ltac:(lia)). fold (uint32 k) in *.
    destruct (Z.ltb_spec 18446744073709551615 (uint32 k)); [lia|].
    destruct (k <? 0)%Z; [reflexivity|]. destruct (Z.to_nat k); reflexivity.
  - intros Hne Hlen k j Hk. split.
    + intros Hnone. unfold vd_getPadIndex.
      assert (El : vd_last_row l = (Z.of_nat (List.length rows) - 1)%Z).
      { unfold vd_last_row. rewrite (vr_rows _ _ _ _ HR). destruct rows as [|y t]; [contradiction|]. cbn [rows_from List.length]. now rewrite rows_from_length. }
      rewrite El. unfold int_ok in Hk. destruct (Z.ltb_spec (Z.of_nat (List.length rows) - 1) (uint32 k)) as [C|C]; [eauto|]. exfalso.
      unfold uint32 in C. destruct (Z_lt_le_dec k 0) as [Hneg|Hpos].
      * rewrite <- (Z_mod_plus_full k 1 4294967296), Z.mod_small in C by lia. lia.
      * rewrite Z.mod_small in C by lia. destruct (nthZ_in_range _ rows k ltac:(lia)) as [y Hy]. congruence.
    + intros x Hx. split; intros Hj; [eapply vd_index_high; eauto; apply HR|].
      eexists. eapply vd_index_low; eauto. apply HR.
Qed.

(** ** geometry *)
Lemma vd_edges : forall rMin h rows top k x j, 0 <= rMin -> vd_story rMin h rows top -> vd_pad rows k x j ->
  vd_phi x (j + 1) - vd_phi x j = vd_pitch x /\ vd_off x <= vd_phi x j <= vd_phi x (j + 1) /\
  vd_phi x (j + 1) <= vd_off x + 2 * PI.
Proof.
  intros rMin h rows top k x j H0 HS HP. destruct HP as [Hk [Hj _]].
  destruct (story_row _ _ _ _ _ _ H0 HS Hk) as [_ [_ [Hrc [Hp Hf]]]]. unfold vd_phi. rewrite !plus_IZR.
  assert (A0 : 0 <= IZR j) by (apply (IZR_le 0); lia).
  assert (A1 : IZR j + 1 <= IZR (va_nPads (snd x))) by (rewrite <- (plus_IZR j 1); apply IZR_le; lia).
  split; [lra|]. split; [nra|]. nra.
Qed.
Lemma vd_geometry : forall rMin h l rows top, 0 <= rMin -> vd_made rMin h l -> vd_story rMin h rows top ->
  forall k x j, vd_pad rows k x j ->
  vd_getPadCenter l (code k j) = Ok (vd_rc x, (vd_phi x j + vd_phi x (j + 1)) / 2) /\
  vd_getRowHeight l k = Ok (va_height (snd x)) /\
  vd_getPadPitch l (code k j) = Ok (vd_pitch x) /\
  vd_getPadWidth l (code k j) = Ok ((if Reqb (va_padWidth (snd x)) 0 then va_pitch (snd x) else va_padWidth (snd x)) / vd_rc x) /\
  vd_getPadHeight l (code k j) = Ok (if Reqb (va_padHeight (snd x)) 0 then va_height (snd x) else va_padHeight (snd x)) /\
  vd_pitch x * IZR (va_nPads (snd x)) <= 2 * PI.
Proof.
  intros rMin h l rows top H0 HM HS k x j HP. pose proof (vd_rep _ _ _ _ _ H0 HM HS) as HR.
  destruct (vd_row_of_val _ _ _ _ _ _ _ HR HP) as [Er Eo]. destruct (pad_range _ _ _ _ HP) as [Hk [Hj Hl]].
  unfold vd_getPadCenter, vd_getPadPitch, vd_getPadWidth, vd_getPadHeight. rewrite Eo. cbn [rmap].
  split; [|split; [|split; [reflexivity|split; [reflexivity|split; [reflexivity|]]]]].
  - rewrite code_pad by lia. cbn. do 2 f_equal. unfold vd_phi. rewrite plus_IZR. lra.
  - unfold vd_getRowHeight, at_. rewrite (vr_rows _ _ _ _ HR), rows_from_nthZ. destruct HP as [-> _]. reflexivity.
  - destruct HP as [Hx _]. apply (story_row _ _ _ _ _ _ H0 HS Hx).
Qed.

(** the layout as a whole: rows stacked from the inner to the outer radius *)
Lemma nthZ_nth : forall A (l : list A) (i : nat), nthZ l (Z.of_nat i) = nth_error l i.
Proof. intros; apply nthZ_of_nat. Qed.
Lemma vd_stack : forall rMin h l rows top, 0 <= rMin -> vd_made rMin h l -> vd_story rMin h rows top ->
  stacked rMin rows top /\ vd_getNRows l = Z.of_nat (List.length rows) /\
  (exists p0 p1, vd_getPlaneExtent l = [rMin; top; p0; p1]) /\
  forall k x, nthZ rows k = Some x ->
    vd_getRowHeight l k = Ok (va_height (snd x)) /\ 0 < va_height (snd x) /\ vd_pitch x * IZR (va_nPads (snd x)) <= 2 * PI.
Proof.
  intros rMin h l rows top H0 HM HS. pose proof (vd_rep _ _ _ _ _ H0 HM HS) as HR.
  split; [apply (story_facts _ _ _ _ H0 HS)|]. split; [unfold vd_getNRows; now rewrite (vr_rows _ _ _ _ HR), rows_from_length|].
  split; [exists (v_e2 l), (v_e3 l); unfold vd_getPlaneExtent; now rewrite (vr_e0 _ _ _ _ HR), (vr_e1 _ _ _ _ HR)|].
  intros k x Hk. destruct (story_row _ _ _ _ _ _ H0 HS Hk) as [_ [HG [Hrc [Hp Hf]]]].
  split; [|split; [apply HG|exact Hf]]. unfold vd_getRowHeight, at_. rewrite (vr_rows _ _ _ _ HR), rows_from_nthZ, Hk. reflexivity.
Qed.

(** ** addRow answers exactly when its demands are met *)
Lemma vd_addRow_iff : forall rMin h l rows top a, 0 <= rMin -> vd_made rMin h l -> vd_story rMin h rows top ->
  let call := vd_addRow l (va_nPads a) (va_pitch a) (va_height a) (va_offset a) (va_padWidth a) (va_padHeight a) (va_repeat a) in
  (vd_good top a -> exists l', call = SOk l' tt) /\
  (~ vd_good top a -> exists l' e, call = SThrow l' e /\
     vd_getNRows l' = vd_getNRows l /\ vd_getPlaneExtent l' = vd_getPlaneExtent l /\
     (forall i, vd_getPadCenter l' i = vd_getPadCenter l i)).
Proof.
  intros rMin h l rows top a H0 HM HS call. pose proof (vd_rep _ _ _ _ _ H0 HM HS) as HR.
  destruct (story_facts _ _ _ _ H0 HS) as [Ht _]. split; intros HG.
  - destruct (vd_add_good rMin rows top l a ltac:(lra) HR HG) as [l' [E _]]. eauto.
  - destruct (vd_add_bad rMin rows top l a ltac:(lra) HR HG) as [n [e [E _]]]. eexists _, _. split; [exact E|]. auto.
Qed.
(** a row refused because its pads do not fit is still counted *)
Lemma vd_phantom_pads : forall rMin h l rows top a, 0 <= rMin -> vd_made rMin h l -> vd_story rMin h rows top ->
  (0 < va_nPads a)%Z -> 0 <= va_pitch a -> 0 <= va_padWidth a <= va_pitch a -> 0 < va_height a -> (0 < va_repeat a)%Z ->
  2 * PI * (top + va_height a / 2) < va_pitch a * IZR (va_nPads a) ->
  exists l' e, vd_addRow l (va_nPads a) (va_pitch a) (va_height a) (va_offset a) (va_padWidth a) (va_padHeight a) (va_repeat a) = SThrow l' e /\
    vd_getNRows l' = vd_getNRows l /\ vd_getNPads l' = (vd_getNPads l + va_repeat a * va_nPads a)%Z /\ (vd_getNPads l < vd_getNPads l')%Z.
Proof.
  intros rMin h l rows top a H0 HM HS Hn Hp Hw Hh Hr Hf. pose proof (vd_rep _ _ _ _ _ H0 HM HS) as HR.
  destruct (story_facts _ _ _ _ H0 HS) as [Ht _].
  assert (HB : ~ vd_good top a) by (intros HG; unfold vd_good in HG; lra).
  destruct (vd_add_bad rMin rows top l a ltac:(lra) HR HB) as [n [e [E [_ Hn']]]].
  eexists _, _. split; [exact E|]. unfold vd_getNPads, vd_getNRows. cbn. split; auto. rewrite Hn' by auto. split; [auto|]. nia.
Qed.
(** otherwise the count is right *)
Lemma pads_of_app : forall a b, pads_of (a ++ b) = (pads_of a + pads_of b)%Z.
Proof. induction a as [|x t IH]; intros b; cbn; auto. unfold pads_of in *. rewrite IH. lia. Qed.
Lemma pads_of_more : forall k lo a, pads_of (more_rows lo a k) = (Z.of_nat k * va_nPads a)%Z.
Proof.
  induction k as [|k IH]; intros lo a; [reflexivity|]. rewrite more_rows_S. unfold pads_of in *. cbn [fold_right snd]. rewrite IH, Nat2Z.inj_succ. ring.
Qed.
Lemma vd_count : forall rMin h, 0 <= rMin -> all_accepted rMin h -> forall l rows top, vd_made rMin h l -> vd_story rMin h rows top ->
  vd_getNPads l = pads_of rows.
Proof.
  intros rMin h H0 HA. induction HA as [|h rows0 top0 a HA IH HS0 HG|h r HA IH]; intros l rows top HM HS.
  - unfold vd_made in HM. cbn in HM. injection HM as <-. inversion HS; try (destruct h; discriminate). reflexivity.
  - destruct (vd_total rMin h H0) as [l1 [rows1 [top1 [HM1 [HS1 HR1]]]]]. destruct (story_fun _ _ _ _ _ _ HS0 HS1) as [-> ->].
    destruct (story_facts _ _ _ _ H0 HS1) as [Ht _].
    destruct (vd_add_good rMin rows1 top1 l1 a ltac:(lra) HR1 HG) as [l' [E [_ [En _]]]].
    unfold vd_made in HM, HM1. rewrite vd_run_app, HM1 in HM. cbn [vd_do] in HM. rewrite E in HM. injection HM as <-.
    destruct (story_fun _ _ _ _ _ _ HS (vs_add _ _ _ _ _ HS1 HG)) as [-> _].
    unfold vd_getNPads. rewrite En. rewrite pads_of_app. fold (more_rows top1 a (Z.to_nat (va_repeat a))). rewrite pads_of_more.
    assert (0 < va_repeat a)%Z by apply HG. specialize (IH l1 rows1 top1 HM1 HS1). unfold vd_getNPads in IH. rewrite IH, Z2Nat.id by lia. reflexivity.
  - destruct (vd_total rMin h H0) as [l1 [rows1 [top1 [HM1 [HS1 HR1]]]]].
    destruct (story_fun _ _ _ _ _ _ HS (vs_asked _ _ _ _ r HS1)) as [-> _].
    unfold vd_made in HM, HM1. rewrite vd_run_app, HM1 in HM. cbn [vd_do] in HM.
    destruct (vd_pads_rep rMin rows1 top1 l1 HR1) with (r := r) as [c [E _]].
    { intros x Hx. destruct (story_facts _ _ _ _ H0 HS1) as [_ [_ Hg]]. destruct (Hg x Hx) as [_ HG]. apply HG. }
    rewrite E in HM. injection HM as <-. apply (IH l1 rows1 top1 HM1 HS1).
Qed.

(** ** neighbours *)
Lemma vd_neighbours : forall rMin h l rows top, 0 <= rMin -> vd_made rMin h l -> vd_story rMin h rows top ->
  forall p0 p1, vd_getPlaneExtent l = [rMin; top; p0; p1] ->
  forall k x j, vd_pad rows k x j ->
  let full := Rabs (p1 - p0 - 2 * PI) < 1 / 1000000 in
  let np := va_nPads (snd x) in
  ((j < np - 1)%Z -> vd_getLeftNeighbour l (code k j) = Ok (code k (j + 1))) /\
  (full -> vd_getLeftNeighbour l (code k (np - 1)) = Ok (code k 0)) /\
  (~ full -> exists e, vd_getLeftNeighbour l (code k (np - 1)) = Throw e) /\
  ((0 < j)%Z -> vd_getRightNeighbour l (code k j) = Ok (code k (j - 1))) /\
  (full -> vd_getRightNeighbour l (code k 0) = Ok (code k (np - 1))) /\
  (~ full -> exists e, vd_getRightNeighbour l (code k 0) = Throw e).
Proof.
  intros rMin h l rows top H0 HM HS p0 p1 HE k x j HP full np. pose proof (vd_rep _ _ _ _ _ H0 HM HS) as HR.
  assert (Hfull : vd_full l = true <-> full).
  { unfold vd_full. rewrite Rltb_true. unfold vd_getPlaneExtent in HE. injection HE as _ _ <- <-. reflexivity. }
  assert (HP' := HP). destruct HP' as [Hx [Hj [Hn Hk]]]. pose proof (pad_range _ _ _ _ HP) as [Hk' [Hj' _]].
  assert (HPad : forall m, (0 <= m < np)%Z -> vd_pad rows k x m) by (intros m Hm; repeat (split; auto)).
  assert (Hidx : forall m, (0 <= m < np)%Z -> vd_getPadIndex l k m = Ok (code k m)) by (intros; eapply vd_index_val; eauto).
  assert (Hrow : forall m, (0 <= m < np)%Z -> vd_getRowNumber l (code k m) = Ok k) by (intros; eapply vd_row_of_val; eauto).
  assert (Hsub : sub (v_rows l) k = Ok (the_row k x)) by (unfold sub; rewrite (vr_rows _ _ _ _ HR), rows_from_nthZ, Hx; reflexivity).
  unfold vd_getLeftNeighbour, vd_getRightNeighbour. fold np in Hj, Hn.
  split; [|split; [|split; [|split; [|split]]]]; intros H; rewrite Hrow, code_pad by lia; cbn [rbind]; rewrite ?Hsub; cbn [rbind v_nPads the_row]; fold np.
  - destruct (Z.eqb_spec (j + 1) np); [lia|]. apply Hidx; lia.
  - apply Hfull in H. destruct (Z.eqb_spec (np - 1 + 1) np); [|lia]. rewrite H. apply Hidx; lia.
  - destruct (Z.eqb_spec (np - 1 + 1) np); [|lia]. destruct (vd_full l); [exfalso; apply H; now apply Hfull|eauto].
  - destruct (Z.eqb_spec (j - 1) (-1)); [lia|]. apply Hidx; lia.
  - apply Hfull in H. destruct (Z.eqb_spec (0 - 1) (-1)); [|lia]. rewrite H. apply Hidx; lia.
  - destruct (Z.eqb_spec (0 - 1) (-1)); [|lia]. destruct (vd_full l); [exfalso; apply H; now apply Hfull|eauto].
Qed.

(** ** lists and clones *)
Lemma vd_pads_list : forall rMin h l rows top, 0 <= rMin -> vd_made rMin h l -> vd_story rMin h rows top ->
  forall k, exists l' v, vd_getPadsInRow l k = SOk l' v /\ vd_made rMin (h ++ [VPads k]) l' /\
    (nthZ rows k = None -> v = []) /\
    (forall x, nthZ rows k = Some x -> (k < 65536)%Z -> (va_nPads (snd x) <= 65536)%Z -> v = map (code k) (upto (Z.to_nat (va_nPads (snd x))))).
Proof.
  intros rMin h l rows top H0 HM HS k. pose proof (vd_rep _ _ _ _ _ H0 HM HS) as HR.
  destruct (story_facts _ _ _ _ H0 HS) as [_ [_ Hg]].
  destruct (vd_pads_rep rMin rows top l HR) with (r := k) as [c [E _]].
  { intros x Hx. destruct (Hg x Hx) as [_ HG]. apply HG. }
  eexists _, _. split; [exact E|]. split.
  { unfold vd_made in *. rewrite vd_run_app, HM. cbn [vd_do]. now rewrite E. }
  unfold nthZ. destruct (Z.ltb_spec k 0) as [Hk|Hk]; [split; intros; [auto|discriminate]|]. unfold vrow_list. split.
  - intros ->. reflexivity.
  - intros x -> Hb Hn. rewrite Z2Nat.id by lia. apply map_ext_in. intros m Hm. unfold RectSpec.upto in Hm. apply in_map_iff in Hm.
    destruct Hm as [y [<- Hy]]. apply in_seq in Hy. apply pack_code; lia.
Qed.
Lemma vd_clone_rep : forall rMin rows top l, vrep rMin rows top l -> vrep rMin rows top (vd_clone l).
Proof.
  intros rMin rows top l HR. destruct HR as [Hr H0 H1 Hl Hc]. split; cbn; auto.
  - now rewrite repeat_length, Hr, rows_from_length.
  - apply cache_ok_none.
Qed.
Lemma vd_clone_same : forall rMin h l, 0 <= rMin -> vd_made rMin h l ->
  let c := vd_clone l in
  vd_getNRows c = vd_getNRows l /\ vd_getNPads c = vd_getNPads l /\
  vd_getPlaneExtent c = vd_getPlaneExtent l /\
  (forall i, vd_getRowHeight c i = vd_getRowHeight l i) /\
  (forall i, vd_getRowNumber c i = vd_getRowNumber l i) /\
  (forall i, vd_getPadHeight c i = vd_getPadHeight l i) /\
  (forall i, vd_getPadWidth c i = vd_getPadWidth l i) /\
  (forall i, vd_getPadPitch c i = vd_getPadPitch l i) /\
  (forall i, vd_getPadCenter c i = vd_getPadCenter l i) /\
  (forall r p, vd_getPadIndex c r p = vd_getPadIndex l r p) /\
  (forall r phi, vd_getNearestPad c r phi = vd_getNearestPad l r phi) /\
  (forall i, vd_getRightNeighbour c i = vd_getRightNeighbour l i) /\
  (forall i, vd_getLeftNeighbour c i = vd_getLeftNeighbour l i) /\
  (forall r phi i, vd_isInsidePad c r phi i = vd_isInsidePad l r phi i) /\
  (forall r phi, vd_isInsideAnyPad c r phi = vd_isInsideAnyPad l r phi) /\
  (forall r phi i, vd_getDistanceToPad c r phi i = vd_getDistanceToPad l r phi i) /\
  (forall i, answer (vd_getPadsInRow c i) = answer (vd_getPadsInRow l i)).
Proof.
  intros rMin h l H0 HM c. destruct (vd_total rMin h H0) as [l' [rows [top [HM' [HS HR]]]]].
  assert (l' = l) by (unfold vd_made in *; congruence). subst l'.
  do 16 (split; [reflexivity|]). intros i.
  assert (Hpos : forall x, In x rows -> (0 < va_nPads (snd x))%Z).
  { intros x Hx. destruct (story_facts _ _ _ _ H0 HS) as [_ [_ Hg]]. destruct (Hg x Hx) as [_ HG]. apply HG. }
  destruct (vd_pads_rep rMin rows top l HR Hpos i) as [c1 [E1 _]].
  destruct (vd_pads_rep rMin rows top c (vd_clone_rep _ _ _ _ HR) Hpos i) as [c2 [E2 _]].
  now rewrite E1, E2.
Qed.

(** ** distance and inside *)
Lemma vd_distance_val : forall rMin h l rows top, 0 <= rMin -> vd_made rMin h l -> vd_story rMin h rows top ->
  forall k x j, vd_pad rows k x j -> forall r phi,
  vd_getDistanceToPad l r phi (code k j) =
    Ok (disk_distance (vd_rc x, (vd_phi x j + vd_phi x (j + 1)) / 2) (va_height (snd x)) (vd_pitch x) r phi).
Proof.
  intros rMin h l rows top H0 HM HS k x j HP r phi. pose proof (vd_rep _ _ _ _ _ H0 HM HS) as HR.
  destruct (vd_geometry _ _ _ _ _ H0 HM HS k x j HP) as [Ec [Eh [Ep _]]].
  destruct (vd_row_of_val _ _ _ _ _ _ _ HR HP) as [Er _].
  unfold vd_getDistanceToPad. rewrite Ec, Er. cbn [rbind]. rewrite Eh. cbn [rbind]. rewrite Ep. reflexivity.
Qed.
Lemma vd_distance : forall rMin h l rows top, 0 <= rMin -> vd_made rMin h l -> vd_story rMin h rows top ->
  forall k x j, vd_pad rows k x j -> forall r phi, 0 <= r ->
  vd_phi x (j + 1) - 2 * PI <= phi <= vd_phi x j + 2 * PI ->
  exists d, vd_getDistanceToPad l r phi (code k j) = Ok d /\
    is_sector_dist r phi (fst x) (fst x + va_height (snd x)) (vd_phi x j) (vd_phi x (j + 1)) d.
Proof.
  intros rMin h l rows top H0 HM HS k x j HP r phi Hr Hphi.
  rewrite (vd_distance_val _ _ _ _ _ H0 HM HS k x j HP). eexists. split; [reflexivity|].
  destruct (vd_edges _ _ _ _ _ _ _ H0 HS HP) as [Ep [Q1 Q2]].
  destruct (story_row _ _ _ _ k x H0 HS ltac:(apply HP)) as [Hx [HG [Hrc [Hp Hf]]]]. assert (Hh : 0 < va_height (snd x)) by apply HG.
  rewrite <- Ep. set (p0 := vd_phi x j) in *. set (p1 := vd_phi x (j + 1)) in *.
  pose proof (disk_distance_euclid (vd_rc x, (p0 + p1) / 2) (va_height (snd x)) (p1 - p0) r phi) as D. cbn [fst snd] in D.
  unfold vd_rc in *.
  replace (fst x + va_height (snd x) / 2 - va_height (snd x) / 2) with (fst x) in D by lra.
  replace (fst x + va_height (snd x) / 2 + va_height (snd x) / 2) with (fst x + va_height (snd x)) in D by lra.
  replace ((p0 + p1) / 2 - (p1 - p0) / 2) with p0 in D by lra. replace ((p0 + p1) / 2 + (p1 - p0) / 2) with p1 in D by lra.
  apply D; lra.
Qed.
Lemma vd_inside_val : forall rMin h l rows top, 0 <= rMin -> vd_made rMin h l -> vd_story rMin h rows top ->
  forall k x j, vd_pad rows k x j -> forall r phi,
  vd_isInsidePad l r phi (code k j) =
   Ok (let phi := if Rltb phi (vd_phi x j) then phi + 2 * PI else phi in
       let phi := if Rleb (vd_phi x j + 2 * PI) phi then phi - 2 * PI else phi in
       (Rleb (fst x) r && Rleb r (fst x + va_height (snd x)) && Rleb phi (vd_phi x (j + 1)))%bool).
Proof.
  intros rMin h l rows top H0 HM HS k x j HP r phi. pose proof (vd_rep _ _ _ _ _ H0 HM HS) as HR.
  destruct (vd_row_of_val _ _ _ _ _ _ _ HR HP) as [Er Eo]. destruct (pad_range _ _ _ _ HP) as [Hk [Hj Hl]].
  unfold vd_isInsidePad. rewrite Eo. cbn [rmap]. rewrite code_pad by lia. cbn [the_row v_rCentre v_rowHeight v_offset v_padPitch].
  replace (vd_rc x - va_height (snd x) * (1 / 2)) with (fst x) by (unfold vd_rc; lra).
  replace (vd_rc x + va_height (snd x) * (1 / 2)) with (fst x + va_height (snd x)) by (unfold vd_rc; lra).
  replace (vd_off x + vd_pitch x * IZR j) with (vd_phi x j) by (unfold vd_phi; lra).
  replace (vd_phi x j + vd_pitch x) with (vd_phi x (j + 1)) by (unfold vd_phi; rewrite plus_IZR; lra). reflexivity.
Qed.
Lemma vd_inside_exact : forall rMin h l rows top, 0 <= rMin -> vd_made rMin h l -> vd_story rMin h rows top ->
  forall k x j, vd_pad rows k x j -> forall r phi, vd_phi x j - 2 * PI <= phi < vd_phi x j + 4 * PI ->
  exists b, vd_isInsidePad l r phi (code k j) = Ok b /\
   (b = true <-> fst x <= r <= fst x + va_height (snd x) /\ exists phi', same_angle phi phi' /\ vd_phi x j <= phi' <= vd_phi x (j + 1)).
Proof.
  intros rMin h l rows top H0 HM HS k x j HP r phi Hphi.
  rewrite (vd_inside_val _ _ _ _ _ H0 HM HS k x j HP). eexists. split; [reflexivity|]. cbv zeta.
  destruct (vd_edges _ _ _ _ _ _ _ H0 HS HP) as [Ep [Q1 Q2]].
  assert (Hpi : vd_phi x (j + 1) <= vd_phi x j + 2 * PI).
  { destruct HP as [Hx [Hj _]]. destruct (story_row _ _ _ _ _ _ H0 HS Hx) as [_ [_ [_ [Hp Hf]]]].
    assert (1 <= IZR (va_nPads (snd x))) by (apply (IZR_le 1); lia). nra. }
  set (p0 := vd_phi x j) in *. set (p1 := vd_phi x (j + 1)) in *. pose proof PI2_pos.
  set (w := if Rleb (p0 + 2 * PI) (if Rltb phi p0 then phi + 2 * PI else phi)
            then (if Rltb phi p0 then phi + 2 * PI else phi) - 2 * PI else if Rltb phi p0 then phi + 2 * PI else phi).
  assert (Hw : p0 <= w < p0 + 2 * PI /\ exists q, phi = w + 2 * PI * IZR q).
  { unfold w. destruct (Rltb_spec phi p0).
    - destruct (Rleb_spec (p0 + 2 * PI) (phi + 2 * PI)); [lra|]. split; [lra|]. exists (-1)%Z. simpl. lra.
    - destruct (Rleb_spec (p0 + 2 * PI) phi).
      + split; [lra|]. exists 1%Z. simpl. lra.
      + split; [lra|]. exists 0%Z. simpl. lra. }
  destruct Hw as [Hw [q Hq]]. rewrite !andb_true_iff, !Rleb_true.
  split; intros [A B].
  - split; [lra|]. exists w. split; [exists q; auto|]. lra.
  - split; [lra|]. destruct B as [phi' [[q' Hq'] Hphi']].
    assert (E : w - phi' = 2 * PI * IZR (q' - q)) by (rewrite minus_IZR; lra).
    assert (Hlt : - (2 * PI) <= w - phi' < 2 * PI) by lra. rewrite E in Hlt.
    assert (Hz : (q' - q < 1)%Z) by (apply lt_IZR; simpl; apply Rmult_lt_reg_l with (2 * PI); auto; lra).
    assert (IZR (q' - q) <= 0) by (apply IZR_le; lia). nra.
Qed.
(** Beyond one turn below the pad everything in the radial range counts as inside. *)
Lemma vd_inside_below : forall rMin h l rows top, 0 <= rMin -> vd_made rMin h l -> vd_story rMin h rows top ->
  forall k x j, vd_pad rows k x j -> forall r phi, fst x <= r <= fst x + va_height (snd x) -> phi < vd_phi x j - 2 * PI ->
  vd_isInsidePad l r phi (code k j) = Ok true.
Proof.
  intros rMin h l rows top H0 HM HS k x j HP r phi Hr Hphi. pose proof PI2_pos. destruct (vd_edges _ _ _ _ _ _ _ H0 HS HP) as [Ep [Q1 Q2]].
  rewrite (vd_inside_val _ _ _ _ _ H0 HM HS k x j HP). f_equal. cbv zeta.
  destruct (Rltb_spec phi (vd_phi x j)); [|lra]. destruct (Rleb_spec (vd_phi x j + 2 * PI) (phi + 2 * PI)); [lra|].
  rewrite !andb_true_iff, !Rleb_true. lra.
Qed.
(** Two turns above it nothing does (unless the pad is the whole circle). *)
Lemma vd_inside_above : forall rMin h l rows top, 0 <= rMin -> vd_made rMin h l -> vd_story rMin h rows top ->
  forall k x j, vd_pad rows k x j -> vd_pitch x < 2 * PI -> forall r phi, vd_phi x j + 4 * PI <= phi ->
  vd_isInsidePad l r phi (code k j) = Ok false.
Proof.
  intros rMin h l rows top H0 HM HS k x j HP Hpi r phi Hphi. pose proof PI2_pos. destruct (vd_edges _ _ _ _ _ _ _ H0 HS HP) as [Ep [Q1 Q2]].
  rewrite (vd_inside_val _ _ _ _ _ H0 HM HS k x j HP). f_equal. cbv zeta.
  destruct (Rltb_spec phi (vd_phi x j)); [lra|]. destruct (Rleb_spec (vd_phi x j + 2 * PI) phi); [|lra].
  rewrite !andb_false_iff, !Rleb_false. right. lra.
Qed.
Lemma vd_centre_inside : forall rMin h l rows top, 0 <= rMin -> vd_made rMin h l -> vd_story rMin h rows top ->
  forall k x j, vd_pad rows k x j -> exists c, vd_getPadCenter l (code k j) = Ok c /\
  vd_isInsidePad l (fst c) (snd c) (code k j) = Ok true /\ vd_getDistanceToPad l (fst c) (snd c) (code k j) = Ok 0.
Proof.
  intros rMin h l rows top H0 HM HS k x j HP. destruct (vd_geometry _ _ _ _ _ H0 HM HS k x j HP) as [Ec _].
  destruct (vd_edges _ _ _ _ _ _ _ H0 HS HP) as [Ep [Q1 Q2]]. pose proof PI2_pos.
  destruct (story_row _ _ _ _ k x H0 HS ltac:(apply HP)) as [Hx [HG [Hrc [Hp Hf]]]]. assert (Hh : 0 < va_height (snd x)) by apply HG.
  eexists. split; [exact Ec|]. cbn [fst snd]. split.
  - destruct (vd_inside_exact _ _ _ _ _ H0 HM HS k x j HP (vd_rc x) ((vd_phi x j + vd_phi x (j + 1)) / 2) ltac:(lra)) as [b [E Hb]].
    rewrite E. f_equal. apply Hb. unfold vd_rc. split; [lra|]. exists ((vd_phi x j + vd_phi x (j + 1)) / 2). split; [exists 0%Z; simpl; lra|lra].
  - rewrite (vd_distance_val _ _ _ _ _ H0 HM HS k x j HP). f_equal.
    apply (disk_distance_centre (vd_rc x, (vd_phi x j + vd_phi x (j + 1)) / 2)); lra.
Qed.
