(** Proofs about FixedPadSizeDiskLayout. *)
From Coq Require Import ZArith List Bool Reals Lra Lia.
From Flocq Require Import Core.Raux.
From Verif Require Import Base RBase BitProofs DiskBase FpsModel DiskSpec DiskProofs.
From Verif Require RectSpec.
Import ListNotations.
Open Scope R_scope.

Lemma floor_div_inv : forall a b n, floor_div a b = Ok n -> b <> 0 /\ int_ok n /\ IZR n <= a / b < IZR n + 1.
Proof.
  intros a b n H. unfold floor_div in H. destruct (Reqb_spec b 0); [discriminate|].
  unfold to_int in H. rewrite Ztrunc_IZR in H. destruct (int_okb (Zfloor (a / b))) eqn:E; [|discriminate].
  injection H as <-. apply int_okb_true in E. split; [auto|split; auto].
  split; [apply Zfloor_lb|apply Zfloor_ub].
Qed.

(** the opening angle after the wrapping loops *)
Definition fphi (a : fps_args) : R := wrap_down (2 * PI) (wrap_up (- 2 * PI) (fa_phiMax a)).
Lemma fphi_id : forall a, -2 * PI <= fa_phiMax a <= 2 * PI -> fphi a = fa_phiMax a.
Proof. intros. apply wrap_id. lra. Qed.

Definition fheight (a : fps_args) (n : Z) : R := (fa_rMax a - fa_rMin a) / IZR n.
Definition frc (a : fps_args) (n i : Z) : R := fa_rMin a + (IZR i + 1 / 2) * fheight a n.

(** one row *)
Definition frow_ok (a : fps_args) (n i : Z) (row : frow) : Prop :=
  f_RCenter row = frc a n i /\ f_PhiPad row = fphi a / IZR (f_NPad row) /\
  floor_div (frc a n i * fphi a) (fa_padWidth a + fa_padGap a) = Ok (f_NPad row).

Lemma fps_rows_ok : forall a n k i rows,
  fps_rows k i (fa_rMin a) (fheight a n) (fphi a) (fa_padWidth a) (fa_padGap a) = Ok rows ->
  List.length rows = k /\ forall j row, nth_error rows j = Some row -> frow_ok a n (i + Z.of_nat j) row.
Proof.
  intros a n k; induction k as [|k IH]; intros i rows H; cbn [fps_rows] in H.
  - injection H as <-. split; auto. intros j row Hj. destruct j; discriminate.
  - replace (fa_rMin a + IZR i * fheight a n + 1 / 2 * fheight a n) with (frc a n i) in H by (unfold frc; lra).
    destruct (floor_div (frc a n i * fphi a) (fa_padWidth a + fa_padGap a)) as [np| |] eqn:E; cbn [rbind] in H; try discriminate.
    destruct (fps_rows k (i + 1) _ _ _ _ _) as [t| |] eqn:Et; cbn [rmap] in H; try discriminate.
    injection H as <-. destruct (IH _ _ Et) as [Hl Hr]. split; [cbn; lia|].
    intros [|j] row Hj; cbn in Hj.
    + injection Hj as <-. replace (i + Z.of_nat 0)%Z with i by lia. unfold frow_ok; cbn. auto.
    + apply Hr in Hj. replace (i + Z.of_nat (S j))%Z with (i + 1 + Z.of_nat j)%Z by lia. exact Hj.
Qed.

(** number of rows the constructor chooses *)
Definition frows_chosen (a : fps_args) (n : Z) : Prop :=
  exists nr, to_int ((fa_rMax a + 1 / 100 - fa_rMin a) / fa_padHeight a) = Ok nr /\
    n = (if (nr <? fa_nRow a)%Z then nr else if (0 <? fa_nRow a)%Z then fa_nRow a else nr).

(** the pads of row k *)
Definition row_list (rows : list frow) (k : nat) : list Z :=
  match nth_error rows k with
  | Some row => map (disk_pack (Z.of_nat k)) (upto (Z.to_nat (f_NPad row)))
  | None => []
  end.

Record frep (a : fps_args) (l : fps) : Prop := mkFrep {
  fr_pos : 0 < fa_padHeight a /\ 0 < fa_padWidth a;
  fr_rMin : f_rMin l = fa_rMin a; fr_rMax : f_rMax l = fa_rMax a; fr_phi : f_phiMax l = fphi a;
  fr_h : f_rowHeight l = fheight a (f_nRow l);
  fr_w : f_padWidth l = fa_padWidth a; fr_ph : f_padHeight l = fa_padHeight a; fr_g : f_padGap l = fa_padGap a;
  fr_n : (0 <= f_nRow l)%Z; fr_choice : frows_chosen a (f_nRow l);
  fr_len : Z.of_nat (List.length (f_rows l)) = f_nRow l; fr_npad : f_nPad l = sum_npad (f_rows l);
  fr_rows : forall j row, nth_error (f_rows l) j = Some row -> frow_ok a (f_nRow l) (Z.of_nat j) row;
  fr_clen : List.length (f_padIndices l) = List.length (f_rows l);
  fr_cache : cache_ok (row_list (f_rows l)) (f_padIndices l) }.

Lemma new_fps_rep : forall a l,
  new_fps (fa_rMin a) (fa_rMax a) (fa_padHeight a) (fa_padWidth a) (fa_nRow a) (fa_padGap a) (fa_phiMax a) = Ok l ->
  frep a l.
Proof.
  intros a l H. unfold new_fps in H.
  destruct (Rleb_spec (fa_padHeight a) 0) as [H1|H1]; [discriminate|].
  destruct (Rleb_spec (fa_padWidth a) 0) as [H2|H2]; [discriminate|]. cbn [orb] in H.
  fold (fphi a) in H.
  destruct (to_int _) as [nr| |] eqn:En; cbn [rbind] in H; try discriminate.
  set (n := if (nr <? fa_nRow a)%Z then nr else if (0 <? fa_nRow a)%Z then fa_nRow a else nr) in *.
  destruct (Z.ltb_spec n 0) as [H3|H3]; [discriminate|].
  change ((fa_rMax a - fa_rMin a) / IZR n) with (fheight a n) in H.
  destruct (fps_rows _ _ _ _ _ _ _) as [rows| |] eqn:Er; cbn [rmap] in H; try discriminate.
  injection H as <-. destruct (fps_rows_ok _ _ _ _ _ Er) as [Hl Hr].
  split; cbn; auto.
  - exists nr. split; auto.
  - lia.
  - rewrite repeat_length. lia.
  - apply cache_ok_none.
Qed.

Lemma frep_small : forall a l, frep a l -> (f_nRow l <= 2147483647)%Z.
Proof.
  intros a l H. destruct (fr_choice a l H) as [nr [E ->]]. unfold to_int in E.
  destruct (int_okb _) eqn:B; [|discriminate]. injection E as <-. apply int_okb_true in B. unfold int_ok in B.
  destruct (Z.ltb_spec (Ztrunc ((fa_rMax a + 1 / 100 - fa_rMin a) / fa_padHeight a)) (fa_nRow a)); [lia|].
  destruct (Z.ltb_spec 0 (fa_nRow a)); lia.
Qed.

(** ** the index *)
Lemma fps_index_in : forall a l i j row, frep a l -> nth_error (f_rows l) i = Some row ->
  (j < f_NPad row)%Z -> fps_getPadIndex l (Z.of_nat i) j = Ok (disk_pack (Z.of_nat i) j).
Proof.
  intros a l i j row HR H Hj. unfold fps_getPadIndex.
  assert (Hlen : (i < List.length (f_rows l))%nat) by (apply nth_error_Some; congruence).
  pose proof (frep_small a l HR). pose proof (fr_len a l HR).
  rewrite uint32_small by lia. rewrite Z.mod_small by lia.
  destruct (Z.ltb_spec (Z.of_nat (List.length (f_rows l)) - 1) (Z.of_nat i)); [lia|].
  unfold sub. rewrite nthZ_of_nat, H. cbn [rbind].
  destruct (Z.ltb_spec (f_NPad row - 1) j); [lia|]. reflexivity.
Qed.
Lemma fill_pack : forall f i k j, (forall m, (j <= m < j + Z.of_nat k)%Z -> f m = Ok (disk_pack i m)) ->
  fill_indices f k j = Ok (map (fun m => disk_pack i (j + Z.of_nat m)) (seq 0 k)).
Proof.
  intros f i k; induction k as [|k IH]; intros j H; cbn [fill_indices]; auto.
  rewrite H by lia. cbn [rbind]. rewrite (IH (j + 1)%Z) by (intros; apply H; lia). cbn [rmap].
  cbn [seq map]. f_equal. f_equal.
  - f_equal. lia.
  - rewrite <- seq_shift, map_map. apply map_ext. intros. f_equal. lia.
Qed.
Lemma upto_length : forall n, List.length (upto n) = n.
Proof. intros. unfold RectSpec.upto. now rewrite map_length, seq_length. Qed.

Definition set_fcache (l : fps) (c : list (option (list Z))) : fps :=
  mkFps (f_rMin l) (f_rMax l) (f_phiMax l) (f_rowHeight l) (f_padWidth l) (f_padHeight l) (f_padGap l)
        (f_nRow l) (f_nPad l) (f_rows l) c.

Lemma fps_pads_rep : forall a l r, frep a l ->
  (exists c, fps_getPadsInRow l r = SOk (set_fcache l c) (if (r <? 0)%Z then [] else row_list (f_rows l) (Z.to_nat r)) /\ frep a (set_fcache l c))
  \/ (exists e, fps_getPadsInRow l r = SThrow l e /\
        exists row, nthZ (f_rows l) r = Some row /\ (f_NPad row < 0)%Z).
Proof.
  intros a l r HR. assert (Hid : set_fcache l (f_padIndices l) = l) by (destruct l; reflexivity).
  pose proof (fr_clen a l HR) as Hcl. unfold fps_getPadsInRow, nthZ.
  destruct (Z.ltb_spec r 0) as [Hr|Hr].
  { left. exists (f_padIndices l). rewrite Hid. auto. }
  destruct (nth_error (f_padIndices l) (Z.to_nat r)) as [[v|]|] eqn:E.
  - left. exists (f_padIndices l). rewrite Hid. rewrite (fr_cache a l HR _ _ E). auto.
  - assert (Hlt : (Z.to_nat r < List.length (f_padIndices l))%nat) by (apply nth_error_Some; congruence).
    destruct (nth_error (f_rows l) (Z.to_nat r)) as [row|] eqn:Er.
    2:{ apply nth_error_None in Er. lia. }
    destruct (Z.ltb_spec (f_NPad row) 0) as [Hn|Hn].
    { right. eexists. split; [reflexivity|]. exists row. auto. }
    left. rewrite (fill_pack _ (Z.of_nat (Z.to_nat r))).
    + exists (cache_set (f_padIndices l) (Z.to_nat r) (row_list (f_rows l) (Z.to_nat r))).
      unfold row_list at 2. rewrite Er. unfold RectSpec.upto at 1. rewrite map_map.
      split.
      * unfold set_fcache. unfold row_list at 1. rewrite Er. unfold RectSpec.upto. rewrite map_map. reflexivity.
      * destruct HR; split; cbn; auto.
        -- rewrite cache_set_length; auto.
        -- apply cache_ok_set; auto.
    + intros m Hm. rewrite <- (Z2Nat.id r) at 1 by lia. eapply fps_index_in; eauto. lia.
  - left. exists (f_padIndices l). rewrite Hid. unfold row_list.
    apply nth_error_None in E. destruct (nth_error (f_rows l) (Z.to_nat r)) eqn:Er; auto.
    assert (Z.to_nat r < List.length (f_rows l))%nat by (apply nth_error_Some; congruence). lia.
Qed.
Lemma fps_asked_rep : forall a h l, frep a l -> forall l', fps_asked l h = Some l' ->
  frep a l' /\ exists c, l' = set_fcache l c.
Proof.
  intros a h; induction h as [|r t IH]; intros l HR l' H; cbn [fps_asked] in H.
  - injection H as <-. split; auto. exists (f_padIndices l). destruct l; reflexivity.
  - destruct (fps_pads_rep a l r HR) as [[c [E HR']]|[e [E _]]]; rewrite E in H.
    + destruct (IH _ HR' _ H) as [A [c' ->]]. split; auto. exists c'. reflexivity.
    + exact (IH _ HR _ H).
Qed.
Lemma fps_made_rep : forall a h l, fps_made a h l -> frep a l.
Proof.
  intros a h l [l0 [H0 H1]]. apply new_fps_rep in H0. now destruct (fps_asked_rep _ _ _ H0 _ H1).
Qed.

(** ** counting *)
Lemma sum_npad_fold : forall rows, sum_npad rows = fold_right Z.add 0%Z (map f_NPad rows).
Proof. induction rows; cbn; auto. now rewrite IHrows. Qed.

Lemma fps_fit : forall a h l, fps_made a h l ->
  let n := fps_getNRows l in
  exists Phi nps,
    same_angle Phi (fa_phiMax a) /\ -2 * PI <= Phi <= 2 * PI /\
    (-2 * PI <= fa_phiMax a <= 2 * PI -> Phi = fa_phiMax a) /\
    fps_getPlaneExtent l = [fa_rMin a; fa_rMax a; 0; Phi] /\
    ((0 < n)%Z -> IZR n * fa_padHeight a <= fa_rMax a + 1 / 100 - fa_rMin a /\
                  forall row, IZR n * fps_getRowHeight l row = fa_rMax a - fa_rMin a) /\
    ((0 < fa_nRow a)%Z -> (n <= fa_nRow a)%Z) /\
    ((fa_nRow a <= 0 \/ n < fa_nRow a)%Z -> fa_rMax a + 1 / 100 - fa_rMin a < IZR (n + 1) * fa_padHeight a) /\
    Z.of_nat (List.length nps) = n /\ fps_getNPads l = fold_right Z.add 0%Z nps /\
    (forall i np, nth_error nps i = Some np ->
       let rc := fa_rMin a + (IZR (Z.of_nat i) + 1 / 2) * fps_getRowHeight l (Z.of_nat i) in
       ((0 <= np)%Z -> fps_row_size l (Z.of_nat i) np) /\
       (0 < fa_padWidth a + fa_padGap a ->
          IZR np * (fa_padWidth a + fa_padGap a) <= rc * Phi < IZR (np + 1) * (fa_padWidth a + fa_padGap a)) /\
       ((0 < np)%Z -> (Z.of_nat i < 65536)%Z -> exists p, fps_getPadPitch l (code (Z.of_nat i) 0) = Ok p /\
          IZR np * p = Phi /\
          (0 < fa_padWidth a + fa_padGap a -> fa_padWidth a + fa_padGap a <= rc * p))).
Proof.
  intros a h l HM n. pose proof (fps_made_rep _ _ _ HM) as HR.
  pose proof (fr_len a l HR) as Hlen. pose proof (fr_n a l HR) as Hn0.
  assert (En : n = f_nRow l) by exact Hlen. destruct (fr_pos a l HR) as [Hph Hpw].
  exists (fphi a), (map f_NPad (f_rows l)).
  split; [apply wrap_same|]. split; [pose proof PI2_pos; apply wrap_window; lra|]. split; [apply fphi_id|].
  split. { unfold fps_getPlaneExtent. now rewrite (fr_rMin a l HR), (fr_rMax a l HR), (fr_phi a l HR). }
  destruct (fr_choice a l HR) as [nr [Enr Hch]].
  set (x := (fa_rMax a + 1 / 100 - fa_rMin a) / fa_padHeight a) in *.
  assert (Ex : fa_rMax a + 1 / 100 - fa_rMin a = x * fa_padHeight a) by (unfold x; field; lra).
  unfold to_int in Enr. destruct (int_okb (Ztrunc x)); [|discriminate]. injection Enr as <-.
  split.
  { intros Hpos. split.
    - rewrite Ex. apply Rmult_le_compat_r; [lra|].
      assert (Hle : (n <= Ztrunc x)%Z).
      { rewrite En, Hch. destruct (Z.ltb_spec (Ztrunc x) (fa_nRow a)); [lia|]. destruct (Z.ltb_spec 0 (fa_nRow a)); lia. }
      destruct (Rle_lt_dec 0 x) as [Hx|Hx].
      + rewrite Ztrunc_floor in Hle by auto. apply Rle_trans with (IZR (Zfloor x)); [now apply IZR_le|apply Zfloor_lb].
      + exfalso. rewrite Ztrunc_ceil in Hle by lra. pose proof (RectProofs3.Zceil_bounds x).
        assert (IZR (Zceil x) < IZR 1) by lra. apply lt_IZR in H0. lia.
    - intros row. unfold fps_getRowHeight. rewrite (fr_h a l HR). unfold fheight. rewrite <- En.
      field. apply not_0_IZR. lia. }
  split. { intros Hp. rewrite En, Hch. destruct (Z.ltb_spec (Ztrunc x) (fa_nRow a)); [lia|]. destruct (Z.ltb_spec 0 (fa_nRow a)); lia. }
  split.
  { intros Hp. assert (E : n = Ztrunc x).
    { revert Hch. destruct (Z.ltb_spec (Ztrunc x) (fa_nRow a)); [lia|]. destruct (Z.ltb_spec 0 (fa_nRow a)); lia. }
    rewrite Ex, E. apply Rmult_lt_compat_r; [lra|]. rewrite plus_IZR.
    destruct (Rle_lt_dec 0 x) as [Hx|Hx].
    - rewrite Ztrunc_floor by auto. apply Zfloor_ub.
    - rewrite Ztrunc_ceil by lra. pose proof (RectProofs3.Zceil_bounds x). lra. }
  split; [rewrite map_length; reflexivity|].
  split. { unfold fps_getNPads. rewrite (fr_npad a l HR). apply sum_npad_fold. }
  intros i np Hi rc. rewrite nth_error_map in Hi.
  destruct (nth_error (f_rows l) i) as [row|] eqn:Er; [|discriminate]. injection Hi as <-.
  destruct (fr_rows a l HR _ _ Er) as [Hrc [Hpp Hnp]].
  assert (Erc : rc = frc a (f_nRow l) (Z.of_nat i)).
  { unfold rc, frc, fps_getRowHeight. now rewrite (fr_h a l HR). }
  destruct (floor_div_inv _ _ _ Hnp) as [Hwg [Hint [Hlo Hhi]]]. rewrite <- Erc in *.
  assert (Hfit : 0 < fa_padWidth a + fa_padGap a ->
     IZR (f_NPad row) * (fa_padWidth a + fa_padGap a) <= rc * fphi a < IZR (f_NPad row + 1) * (fa_padWidth a + fa_padGap a)).
  { intros Hw. rewrite plus_IZR.
    assert (E : rc * fphi a = rc * fphi a / (fa_padWidth a + fa_padGap a) * (fa_padWidth a + fa_padGap a)) by (field; lra).
    rewrite E. split; [apply Rmult_le_compat_r|apply Rmult_lt_compat_r]; lra. }
  split.
  { intros H0. unfold fps_row_size. destruct (fps_pads_rep a l (Z.of_nat i) HR) as [[c [E _]]|[e [E [row' [E' Hneg]]]]].
    - rewrite E. destruct (Z.ltb_spec (Z.of_nat i) 0); [lia|]. eexists _, _. split; [reflexivity|].
      unfold row_list. rewrite Nat2Z.id, Er, map_length, upto_length. lia.
    - rewrite nthZ_of_nat, Er in E'. injection E' as <-. lia. }
  split; [exact Hfit|].
  intros Hpos Hi6. exists (fphi a / IZR (f_NPad row)).
  assert (Hnz : IZR (f_NPad row) <> 0) by (apply not_0_IZR; lia).
  split.
  { unfold fps_getPadPitch. rewrite code_row by lia. rewrite nthZ_of_nat, Er.
    destruct (Z.eqb_spec (f_NPad row) 0); [lia|]. now rewrite Hpp. }
  split; [field; auto|]. intros Hw. destruct (Hfit Hw) as [F _].
  apply Rmult_le_reg_r with (IZR (f_NPad row)); [apply (IZR_lt 0); lia|].
  replace (rc * (fphi a / IZR (f_NPad row)) * IZR (f_NPad row)) with (rc * fphi a) by (field; auto). lra.
Qed.
