(** Nearest pad of FixedPadSizeDiskLayout for directions outside the plane; defects. *)
From Coq Require Import ZArith List String Bool Reals Lra Lia.
From Flocq Require Import Core.Raux.
From Verif Require Import Base RBase BitProofs DiskBase FpsModel DiskSpec DiskProofs FpsProofs FpsProofs2 FpsProofs3.
From Verif Require RectSpec RectProofs5.
Import ListNotations.
Open Scope R_scope.

Definition clampr (a : fps_args) (x : R) : R := Rmax (fa_rMin a) (Rmin (fa_rMax a) x).

Lemma fps_all_row : forall a l k, frep a l -> fps_all_rows l -> (0 <= k < f_nRow l)%Z ->
  exists row, nth_error (f_rows l) (Z.to_nat k) = Some row /\ (0 < f_NPad row <= 65536)%Z /\ (k < 65536)%Z.
Proof.
  intros a l k HR [Hn Hall] Hk. pose proof (fr_len a l HR) as Hlen. unfold fps_getNRows in *.
  destruct (Hall k ltac:(lia)) as [np [Hsz Hnp]].
  destruct (fps_size_row a l k np HR Hsz ltac:(lia)) as [row [_ [Hr En]]].
  exists row. split; auto. lia.
Qed.

Lemma fps_row_of_val : forall a l x, frep a l -> fps_sane a -> (0 < f_nRow l <= 65536)%Z -> fa_rMin a <= x <= fa_rMax a ->
  exists k, fps_row_of l x = Ok k /\ (0 <= k < f_nRow l)%Z /\
    fa_rMin a + IZR k * f_rowHeight l <= x <= fa_rMin a + (IZR k + 1) * f_rowHeight l.
Proof.
  intros a l x HR HS Hn Hx. destruct HS as [Hrr [Hwg Hph]].
  pose proof (frep_h_pos a l HR ltac:(lra) ltac:(lia)) as Hh.
  pose proof (frep_h_total a l HR ltac:(lia)) as Htot.
  unfold fps_row_of. rewrite (fr_rMin a l HR).
  destruct (Rlt_le_dec x (fa_rMax a)) as [C|C].
  - destruct (floor_cell ((x - fa_rMin a) / f_rowHeight l) (f_nRow l) ltac:(lia)) as [k [Hk B]].
    { split; [apply Rmult_le_pos; [lra|left; apply Rinv_0_lt_compat; lra]|].
      apply Rmult_lt_reg_r with (f_rowHeight l); auto.
      replace ((x - fa_rMin a) / f_rowHeight l * f_rowHeight l) with (x - fa_rMin a) by (field; lra). lra. }
    exists k. rewrite (floor_div_val _ _ k) by (unfold int_ok; lia || lra). cbn [rmap].
    destruct (Z.ltb_spec k 0); [lia|]. destruct (Z.leb_spec (f_nRow l) k); [lia|]. split; auto. split; auto.
    assert (E : x - fa_rMin a = (x - fa_rMin a) / f_rowHeight l * f_rowHeight l) by (field; lra).
    assert (IZR k * f_rowHeight l <= (x - fa_rMin a) / f_rowHeight l * f_rowHeight l) by (apply Rmult_le_compat_r; lra).
    assert ((x - fa_rMin a) / f_rowHeight l * f_rowHeight l < (IZR k + 1) * f_rowHeight l) by (apply Rmult_lt_compat_r; lra). lra.
  - exists (f_nRow l - 1)%Z. assert (Ex : x = fa_rMax a) by lra.
    rewrite (floor_div_val _ _ (f_nRow l)); [|lra|unfold int_ok; lia|].
    + cbn [rmap]. destruct (Z.ltb_spec (f_nRow l) 0); [lia|]. destruct (Z.leb_spec (f_nRow l) (f_nRow l)); [|lia].
      split; auto. split; [lia|]. rewrite minus_IZR. lra.
    + rewrite Ex, <- Htot. replace (IZR (f_nRow l) * f_rowHeight l / f_rowHeight l) with (IZR (f_nRow l)) by (field; lra). lra.
Qed.

Lemma fps_area2_val : forall a l rpMin rpMax phi, frep a l -> fps_sane a -> fps_all_rows l ->
  phi < 0 \/ f_phiMax l < phi ->
  exists k row, nth_error (f_rows l) (Z.to_nat k) = Some row /\ (0 <= k < f_nRow l)%Z /\
    fps_area2 l rpMin rpMax phi = Ok (code k (if Rltb phi 0 then 0 else f_NPad row - 1)) /\
    let rp := if Rltb phi 0 then rpMin else rpMax in
    fa_rMin a + IZR k * f_rowHeight l <= clampr a rp <= fa_rMin a + (IZR k + 1) * f_rowHeight l.
Proof.
  intros a l rpMin rpMax phi HR HS HA Hphi.
  assert (Hn : (0 < f_nRow l <= 65536)%Z).
  { destruct HA as [Hn _]. unfold fps_getNRows in Hn. rewrite (fr_len a l HR) in Hn. exact Hn. }
  pose proof (fphi_sane a HS) as Ephi. assert (HS' := HS). destruct HS' as [Hrr [Hwg Hph]].
  pose proof (frep_h_pos a l HR ltac:(lra) ltac:(lia)) as Hh.
  pose proof (frep_h_total a l HR ltac:(lia)) as Htot.
  assert (Hidx : forall k row j, nth_error (f_rows l) (Z.to_nat k) = Some row -> (0 <= k < f_nRow l)%Z ->
     (0 <= j < f_NPad row)%Z -> (f_NPad row <= 65536)%Z -> fps_getPadIndex l k j = Ok (code k j)).
  { intros k row j Hr Hk Hj Hle. rewrite <- (Z2Nat.id k) by lia. eapply fps_index_code; eauto; lia. }
  assert (Hsub : forall k row, nth_error (f_rows l) (Z.to_nat k) = Some row -> (0 <= k)%Z -> sub (f_rows l) k = Ok row).
  { intros k row Hr Hk. unfold sub, nthZ. destruct (Z.ltb_spec k 0); [lia|]. now rewrite Hr. }
  assert (K : exists k, (0 <= k < f_nRow l)%Z /\
    (forall row, nth_error (f_rows l) (Z.to_nat k) = Some row -> (0 < f_NPad row <= 65536)%Z ->
      fps_area2 l rpMin rpMax phi = Ok (code k (if Rltb phi 0 then 0 else f_NPad row - 1))) /\
    let rp := if Rltb phi 0 then rpMin else rpMax in
    fa_rMin a + IZR k * f_rowHeight l <= clampr a rp <= fa_rMin a + (IZR k + 1) * f_rowHeight l).
  { unfold fps_area2. rewrite (fr_rMin a l HR), (fr_rMax a l HR). rewrite (fr_phi a l HR), Ephi in *.
    destruct (Rltb_spec phi 0) as [C|C].
    - rewrite !andb_true_r. destruct (Rltb_spec (fa_phiMax a) phi); [lra|]. rewrite !andb_false_r. 
      destruct (Rltb_spec rpMin (fa_rMin a)) as [D|D]; [|destruct (Rltb_spec (fa_rMax a) rpMin) as [D2|D2]].
      + exists 0%Z. split; [lia|]. split; [intros; eapply Hidx; eauto; lia|]. unfold clampr. rewrite Rmin_right, Rmax_left by lra. lra.
      + exists (f_nRow l - 1)%Z. split; [lia|]. split; [intros; eapply Hidx; eauto; lia|]. unfold clampr.
        rewrite Rmin_left, Rmax_right by lra. rewrite minus_IZR. lra.
      + destruct (Rleb_spec (fa_rMin a) rpMin); [|lra]. destruct (Rleb_spec rpMin (fa_rMax a)); [|lra]. cbn [andb].
        destruct (fps_row_of_val a l rpMin HR HS Hn ltac:(lra)) as [k [E [Hk B]]]. exists k. split; auto.
        split; [intros; rewrite E; cbn [rbind]; eapply Hidx; eauto; lia|].
        unfold clampr. rewrite Rmin_right, Rmax_right by lra. exact B.
    - rewrite !andb_false_r. destruct (Rltb_spec (fa_phiMax a) phi) as [C2|C2]; [|lra]. rewrite !andb_true_r.
      destruct (Rltb_spec rpMax (fa_rMin a)) as [D|D]; [|destruct (Rltb_spec (fa_rMax a) rpMax) as [D2|D2]].
      + exists 0%Z. split; [lia|]. split.
        { intros row Hr Hp. rewrite (Hsub _ _ Hr) by lia. cbn [rbind]. eapply Hidx; eauto; lia. }
        unfold clampr. rewrite Rmin_right, Rmax_left by lra. lra.
      + exists (f_nRow l - 1)%Z. split; [lia|]. split.
        { intros row Hr Hp. rewrite (Hsub _ _ Hr) by lia. cbn [rbind]. eapply Hidx; eauto; lia. }
        unfold clampr. rewrite Rmin_left, Rmax_right by lra. rewrite minus_IZR. lra.
      + destruct (Rleb_spec (fa_rMin a) rpMax); [|lra]. destruct (Rleb_spec rpMax (fa_rMax a)); [|lra]. cbn [andb].
        destruct (fps_row_of_val a l rpMax HR HS Hn ltac:(lra)) as [k [E [Hk B]]]. exists k. split; auto. split.
        { intros row Hr Hp. rewrite E; cbn [rbind]. rewrite (Hsub _ _ Hr) by lia. cbn [rbind]. eapply Hidx; eauto; lia. }
        unfold clampr. rewrite Rmin_right, Rmax_right by lra. exact B. }
  destruct K as [k [Hk [HE HB]]]. destruct (fps_all_row a l k HR HA Hk) as [row [Hr [Hp _]]].
  exists k, row. split; auto.
Qed.

(** outside the plane *)
Lemma fps_nearest_area2 : forall l r phi, 1 / 1000000 <= r -> fps_turn l phi < 0 \/ f_phiMax l < fps_turn l phi ->
  fps_getNearestPad l r phi =
    fps_area2 l (if fps_full l then r else r * cos (fps_turn l phi - 0))
                (if fps_full l then r else r * cos (fps_turn l phi - f_phiMax l)) (fps_turn l phi).
Proof.
  intros l r phi Hr Ht. unfold fps_getNearestPad.
  destruct (Rltb_spec (Rabs r) (1 / 1000000)) as [C|C]; [rewrite Rabs_pos_eq in C; lra|].
  fold (fps_turn l phi).
  destruct (Rltb_spec 0 r); [|lra]. destruct (Rleb_spec 0 (fps_turn l phi)), (Rleb_spec (fps_turn l phi) (f_phiMax l)); cbn [andb]; try reflexivity. lra.
Qed.

Lemma fps_nearest_total : forall a h l, fps_made a h l -> fps_sane a -> fps_all_rows l ->
  forall r phi, 1 / 1000000 <= r -> r < fa_rMin a + 2147483648 * fps_getRowHeight l 0 ->
  exists i j, fps_getNearestPad l r phi = Ok (code i j) /\ fps_valid l i j.
Proof.
  intros a h l HM HS HA r phi Hr6 Hrmax. pose proof (fps_made_rep _ _ _ HM) as HR.
  pose proof (fphi_sane a HS) as Ephi.
  destruct (Rle_lt_dec 0 (fps_turn l phi)) as [C1|C1]; [destruct (Rle_lt_dec (fps_turn l phi) (f_phiMax l)) as [C2|C2]|].
  - assert (Hph := proj2 (proj2 HS)). rewrite (fr_phi a l HR), Ephi in C2.
    destruct (fps_nearest_cell a h l HM HS HA r (fps_turn l phi) Hr6 Hrmax (or_introl (conj C1 C2)))
      as [i [j [np [phi' [EN [Hsz [Hj [_ _]]]]]]]].
    exists i, j. split.
    + rewrite <- EN. assert (Et : fps_turn l (fps_turn l phi) = fps_turn l phi) by (apply fps_turn_id; lra).
      rewrite (fps_nearest_area1 l r phi), (fps_nearest_area1 l r (fps_turn l phi)); rewrite ?Et, ?(fr_phi a l HR), ?Ephi; try lra.
      reflexivity.
    + destruct (fps_size_row a l i np HR Hsz ltac:(lia)) as [row [Hi [Hr En]]].
      assert (Hil : (Z.to_nat i < List.length (f_rows l))%nat) by (apply nth_error_Some; congruence).
      pose proof (fr_len a l HR). destruct (fps_all_row a l i HR HA ltac:(lia)) as [row' [Hr' [Hp Hi6]]].
      rewrite Hr in Hr'. injection Hr' as <-. exists np. split; auto. lia.
  - rewrite fps_nearest_area2 by auto.
    destruct (fps_area2_val a l (if fps_full l then r else r * cos (fps_turn l phi - 0)) (if fps_full l then r else r * cos (fps_turn l phi - f_phiMax l)) (fps_turn l phi) HR HS HA (or_intror C2)) as [k [row [Hr [Hk [E _]]]]].
    rewrite E. eexists _, _. split; [reflexivity|].
    destruct (fps_all_row a l k HR HA Hk) as [row' [Hr' [Hp Hi6]]]. rewrite Hr in Hr'. injection Hr' as <-.
    exists (f_NPad row). rewrite <- (Z2Nat.id k) at 1 by lia. split; [eapply fps_row_size_of; eauto; lia|].
    destruct (Rltb (fps_turn l phi) 0); lia.
  - rewrite fps_nearest_area2 by auto.
    destruct (fps_area2_val a l (if fps_full l then r else r * cos (fps_turn l phi - 0)) (if fps_full l then r else r * cos (fps_turn l phi - f_phiMax l)) (fps_turn l phi) HR HS HA (or_introl C1)) as [k [row [Hr [Hk [E _]]]]].
    rewrite E. eexists _, _. split; [reflexivity|].
    destruct (fps_all_row a l k HR HA Hk) as [row' [Hr' [Hp Hi6]]]. rewrite Hr in Hr'. injection Hr' as <-.
    exists (f_NPad row). rewrite <- (Z2Nat.id k) at 1 by lia. split; [eapply fps_row_size_of; eauto; lia|].
    destruct (Rltb (fps_turn l phi) 0); lia.
Qed.

Lemma fps_turn_wide : forall l phi, fps_full l = false -> -2 * PI <= phi <= 2 * PI -> fps_turn l phi = phi.
Proof. intros l phi F H. unfold fps_turn. rewrite F. apply wrap_id. lra. Qed.

(** the quadratic r' -> r'^2 - 2 r' x is smallest at x clamped *)
Lemma clamp_best : forall a x r', fa_rMin a <= r' <= fa_rMax a ->
  (clampr a x - x) * (clampr a x - x) <= (r' - x) * (r' - x).
Proof.
  intros a x r' H. apply Rsqr_le_abs_1. unfold clampr, Rmax, Rmin.
  destruct (Rle_dec (fa_rMax a) x); destruct (Rle_dec (fa_rMin a) _); unfold Rabs; repeat destruct (Rcase_abs _); lra.
Qed.
Lemma cos_far : forall d x, 0 <= d <= x -> x <= 2 * PI - d -> cos x <= cos d.
Proof.
  intros d x H1 H2. pose proof (cos_max_end d (2 * PI - d) x ltac:(lra) ltac:(lra) ltac:(lra)) as H.
  replace (cos (2 * PI - d)) with (cos d) in H; [rewrite Rmax_left in H; lra|].
  rewrite <- cos_neg. replace (2 * PI - d) with (- d + 2 * INR 1 * PI) by (simpl; lra). now rewrite cos_period.
Qed.

Lemma fps_nearest_minimal_turn : forall a h l, fps_made a h l -> fps_sane a -> fps_all_rows l ->
  1 / 1000000 <= 2 * PI - fa_phiMax a \/ fa_phiMax a = 2 * PI ->
  forall r phi, 1 / 1000000 <= r -> r < fa_rMin a + 2147483648 * fps_getRowHeight l 0 ->
  fa_phiMax a / 2 - PI <= phi <= fa_phiMax a / 2 + PI ->
  exists i d, fps_getNearestPad l r phi = Ok i /\ fps_getDistanceToPad l r phi i = Ok d /\
    forall i' j', fps_valid l i' j' -> exists d', fps_getDistanceToPad l r phi (code i' j') = Ok d' /\ d <= d'.
Proof.
  intros a h l HM HS HA Hopen r phi Hr6 Hrmax Hphi. pose proof (fps_made_rep _ _ _ HM) as HR.
  pose proof (fphi_sane a HS) as Ephi. assert (Hph := proj2 (proj2 HS)). assert (Hrr := proj1 HS).
  destruct (Rle_lt_dec 0 phi) as [C1|C1]; [destruct (Rle_lt_dec phi (fa_phiMax a)) as [C2|C2]|].
  { apply (fps_nearest_minimal a h l); auto. }
  - (* beyond the upper edge *)
    destruct Hopen as [Hopen|Hopen]; [|exfalso; lra].
    assert (F : fps_full l = false).
    { unfold fps_full. rewrite (fr_phi a l HR), Ephi. apply Rltb_false. rewrite Rabs_minus_sym, Rabs_pos_eq; lra. }
    assert (Et : fps_turn l phi = phi) by (apply fps_turn_wide; auto; lra).
    pose proof (fps_nearest_area2 l r phi Hr6) as EN. rewrite Et, F in EN.
    rewrite (fr_phi a l HR), Ephi in EN. rewrite EN by (right; lra). clear EN.
    destruct (fps_area2_val a l (r * cos (phi - 0)) (r * cos (phi - fa_phiMax a)) phi HR HS HA) as [k [row [Hr [Hk [E B]]]]].
    { right. rewrite (fr_phi a l HR), Ephi. lra. }
    rewrite E. destruct (Rltb_spec phi 0) as [?|_]; [lra|].
    destruct (fps_all_row a l k HR HA Hk) as [row' [Hr' [Hp Hi6]]]. rewrite Hr in Hr'. injection Hr' as <-.
    assert (HV : fps_valid l k (f_NPad row - 1)).
    { exists (f_NPad row). rewrite <- (Z2Nat.id k) at 1 by lia. split; [eapply fps_row_size_of; eauto; lia|]. lia. }
    destruct (fps_distance a h l HM HS _ _ HV r phi ltac:(lra) ltac:(lra)) as [np [d [Hsz [Ed [_ Hmin]]]]].
    eexists _, d. split; [reflexivity|]. split; [exact Ed|].
    assert (Enp : np = f_NPad row).
    { destruct Hsz as [l1 [v1 [E1 L1]]]. destruct (fps_row_size_of a l _ row HR Hr ltac:(lia)) as [l2 [v2 [E2 L2]]].
      rewrite Z2Nat.id in E2 by lia. rewrite E1 in E2. injection E2 as _ <-. lia. }
    subst np. assert (Hnz : 0 < IZR (f_NPad row)) by (apply (IZR_lt 0); lia).
    intros i' j' HV'. destruct (fps_distance a h l HM HS _ _ HV' r phi ltac:(lra) ltac:(lra)) as [np' [d' [Hsz' [Ed' [[r' [p' [Hr' [Hp' Ea]]]] _]]]]].
    exists d'. split; [exact Ed'|]. rewrite <- Ea.
    destruct (fps_pad_geometry a h l HM HS i' j' HV') as [np2 [Hsz2 [Hj2 [_ [_ [_ [_ [_ [_ [Q1 [Q2 [Q3 [Q4 _]]]]]]]]]]]]].
    assert (np2 = np') by (destruct Hsz2 as [? [? [Z1 Z2]]]; destruct Hsz' as [? [? [Z3 Z4]]]; rewrite Z1 in Z3; injection Z3 as _ <-; lia). subst np2.
    assert (Hpp : 0 <= p' <= fa_phiMax a) by lra.
    assert (Hrp : fa_rMin a <= r' <= fa_rMax a) by lra.
    apply Rle_trans with (pdist r phi (clampr a (r * cos (phi - fa_phiMax a))) (fa_phiMax a)).
    { apply Hmin.
      - unfold fps_getRowHeight in *. lra.
      - rewrite minus_IZR.
        replace ((IZR (f_NPad row) - 1 + 1) * (fa_phiMax a / IZR (f_NPad row))) with (fa_phiMax a) by (field; lra).
        split; [|lra]. replace (fa_phiMax a) with (IZR (f_NPad row) * (fa_phiMax a / IZR (f_NPad row))) at 2 by (field; lra).
        apply Rmult_le_compat_r; [|lra]. apply Rmult_le_pos; [lra|]. left. now apply Rinv_0_lt_compat. }
    rewrite !pdist_eq. apply sqrt_le_1; try (apply quad_nonneg; apply COS_bound).
    pose proof (cos_far (phi - fa_phiMax a) (phi - p') ltac:(lra) ltac:(lra)) as Hc.
    pose proof (clamp_best a (r * cos (phi - fa_phiMax a)) r' Hrp) as Hcl.
    assert (0 <= r * r') by (apply Rmult_le_pos; lra). assert (r * r' * cos (phi - p') <= r * r' * cos (phi - fa_phiMax a)) by (apply Rmult_le_compat_l; lra).
    lra.
  - destruct Hopen as [Hopen|Hopen]; [|exfalso; lra].
    assert (F : fps_full l = false).
    { unfold fps_full. rewrite (fr_phi a l HR), Ephi. apply Rltb_false. rewrite Rabs_minus_sym, Rabs_pos_eq; lra. }
    assert (Et : fps_turn l phi = phi) by (apply fps_turn_wide; auto; lra).
    pose proof (fps_nearest_area2 l r phi Hr6) as EN. rewrite Et, F in EN.
    rewrite (fr_phi a l HR), Ephi in EN. rewrite EN by (left; lra). clear EN.
    destruct (fps_area2_val a l (r * cos (phi - 0)) (r * cos (phi - fa_phiMax a)) phi HR HS HA (or_introl C1)) as [k [row [Hr [Hk [E B]]]]].
    rewrite E. destruct (Rltb_spec phi 0) as [_|?]; [|lra].
    destruct (fps_all_row a l k HR HA Hk) as [row' [Hr' [Hp Hi6]]]. rewrite Hr in Hr'. injection Hr' as <-.
    assert (HV : fps_valid l k 0).
    { exists (f_NPad row). rewrite <- (Z2Nat.id k) at 1 by lia. split; [eapply fps_row_size_of; eauto; lia|]. lia. }
    destruct (fps_distance a h l HM HS _ _ HV r phi ltac:(lra) ltac:(lra)) as [np [d [Hsz [Ed [_ Hmin]]]]].
    eexists _, d. split; [reflexivity|]. split; [exact Ed|].
    assert (Enp : np = f_NPad row).
    { destruct Hsz as [l1 [v1 [E1 L1]]]. destruct (fps_row_size_of a l _ row HR Hr ltac:(lia)) as [l2 [v2 [E2 L2]]].
      rewrite Z2Nat.id in E2 by lia. rewrite E1 in E2. injection E2 as _ <-. lia. }
    subst np. assert (Hnz : 0 < IZR (f_NPad row)) by (apply (IZR_lt 0); lia).
    intros i' j' HV'. destruct (fps_distance a h l HM HS _ _ HV' r phi ltac:(lra) ltac:(lra)) as [np' [d' [Hsz' [Ed' [[r' [p' [Hr' [Hp' Ea]]]] _]]]]].
    exists d'. split; [exact Ed'|]. rewrite <- Ea.
    destruct (fps_pad_geometry a h l HM HS i' j' HV') as [np2 [Hsz2 [Hj2 [_ [_ [_ [_ [_ [_ [Q1 [Q2 [Q3 [Q4 _]]]]]]]]]]]]].
    assert (np2 = np') by (destruct Hsz2 as [? [? [Z1 Z2]]]; destruct Hsz' as [? [? [Z3 Z4]]]; rewrite Z1 in Z3; injection Z3 as _ <-; lia). subst np2.
    assert (Hpp : 0 <= p' <= fa_phiMax a) by lra.
    assert (Hrp : fa_rMin a <= r' <= fa_rMax a) by lra.
    apply Rle_trans with (pdist r phi (clampr a (r * cos (phi - 0))) 0).
    { apply Hmin.
      - unfold fps_getRowHeight in *. lra.
      - split; [lra|]. replace (0 + 1) with 1 by lra. rewrite Rmult_1_l. apply Rmult_le_pos; [lra|]. left. now apply Rinv_0_lt_compat. }
    rewrite !pdist_eq. apply sqrt_le_1; try (apply quad_nonneg; apply COS_bound).
    assert (Hc : cos (phi - p') <= cos (phi - 0)).
    { rewrite <- (cos_neg (phi - p')), <- (cos_neg (phi - 0)). apply cos_far; lra. }
    pose proof (clamp_best a (r * cos (phi - 0)) r' Hrp) as Hcl.
    assert (0 <= r * r') by (apply Rmult_le_pos; lra). assert (r * r' * cos (phi - p') <= r * r' * cos (phi - 0)) by (apply Rmult_le_compat_l; lra).
    lra.
Qed.

(** the answer depends on how the direction is written *)
Lemma fps_nearest_direction : forall a h l, fps_made a h l -> fps_sane a -> fps_all_rows l ->
  1 / 1000000 <= 2 * PI - fa_phiMax a ->
  forall r d, 1 / 1000000 <= r -> 0 < d < 2 * PI - fa_phiMax a ->
  exists i i' np', fps_getNearestPad l r (- d) = Ok (code i 0) /\ fps_valid l i 0 /\
    fps_getNearestPad l r (2 * PI - d) = Ok (code i' (np' - 1)) /\
    fps_row_size l i' np' /\ fps_valid l i' (np' - 1).
Proof.
  intros a h l HM HS HA Hopen r d Hr6 Hd. pose proof (fps_made_rep _ _ _ HM) as HR.
  pose proof (fphi_sane a HS) as Ephi. assert (Hph := proj2 (proj2 HS)).
  assert (F : fps_full l = false).
  { unfold fps_full. rewrite (fr_phi a l HR), Ephi. apply Rltb_false. rewrite Rabs_minus_sym, Rabs_pos_eq; lra. }
  assert (Et1 : fps_turn l (- d) = - d) by (apply fps_turn_wide; auto; lra).
  assert (Et2 : fps_turn l (2 * PI - d) = 2 * PI - d) by (apply fps_turn_wide; auto; lra).
  pose proof (fps_nearest_area2 l r (- d) Hr6) as E1. rewrite Et1 in E1. rewrite E1 by (left; lra).
  pose proof (fps_nearest_area2 l r (2 * PI - d) Hr6) as E2. rewrite Et2, (fr_phi a l HR), Ephi in E2. rewrite E2 by (right; lra).
  destruct (fps_area2_val a l (if fps_full l then r else r * cos (- d - 0)) (if fps_full l then r else r * cos (- d - f_phiMax l)) (- d) HR HS HA) as [k [row [Hr [Hk [E _]]]]]; [left; lra|].
  destruct (fps_area2_val a l (if fps_full l then r else r * cos (2 * PI - d - 0)) (if fps_full l then r else r * cos (2 * PI - d - fa_phiMax a)) (2 * PI - d) HR HS HA) as [k' [row' [Hr' [Hk' [E' _]]]]];
    [right; rewrite (fr_phi a l HR), Ephi; lra|].
  exists k, k', (f_NPad row').
  destruct (fps_all_row a l k HR HA Hk) as [rowx [Hrx [Hp Hi6]]]. rewrite Hr in Hrx. injection Hrx as <-.
  destruct (fps_all_row a l k' HR HA Hk') as [rowy [Hry [Hp' Hi6']]]. rewrite Hr' in Hry. injection Hry as <-.
  split. { rewrite E. destruct (Rltb_spec (- d) 0); [reflexivity|lra]. }
  split. { exists (f_NPad row). rewrite <- (Z2Nat.id k) at 1 by lia. split; [eapply fps_row_size_of; eauto; lia|]. lia. }
  split. { rewrite E'. destruct (Rltb_spec (2 * PI - d) 0); [lra|reflexivity]. }
  assert (Hsz : fps_row_size l k' (f_NPad row')).
  { rewrite <- (Z2Nat.id k') at 1 by lia. eapply fps_row_size_of; eauto; lia. }
  split; [exact Hsz|]. exists (f_NPad row'). split; [exact Hsz|]. lia.
Qed.

(** the test for any pad *)
Lemma fps_inside_any_sound : forall a h l, fps_made a h l -> fps_sane a -> fps_all_rows l ->
  forall r phi, 1 / 1000000 <= r -> exists b, fps_isInsideAnyPad l r phi = Ok b /\
    (b = true -> exists i j, fps_valid l i j /\ fps_isInsidePad l r phi (code i j) = Ok true).
Proof.
  intros a h l HM HS HA r phi Hr6. pose proof (fps_made_rep _ _ _ HM) as HR. unfold fps_isInsideAnyPad.
  destruct (Rltb_spec r (f_rMin l)) as [C|C]; [exists false; split; [reflexivity|discriminate]|].
  destruct (Rltb_spec (f_rMax l) r) as [D|D]; [exists false; split; [reflexivity|discriminate]|]. cbn [orb].
  set (w := wrap_down (2 * PI) (wrap_up 0 phi)).
  assert (Hrb : r < fa_rMin a + 2147483648 * fps_getRowHeight l 0).
  { rewrite (fr_rMin a l HR) in C. rewrite (fr_rMax a l HR) in D. destruct HA as [Hn _]. unfold fps_getNRows in Hn.
    rewrite (fr_len a l HR) in Hn. pose proof (frep_h_total a l HR ltac:(lia)) as Ht.
    pose proof (frep_h_pos a l HR ltac:(destruct HS; lra) ltac:(lia)) as Hh. unfold fps_getRowHeight.
    assert (IZR (f_nRow l) <= 65536) by (apply (IZR_le _ 65536); lia). nra. }
  destruct (fps_nearest_total a h l HM HS HA r w Hr6 Hrb) as [i [j [E HV]]]. rewrite E. cbn [rbind].
  destruct (fps_inside_exact a h l HM HS i j HV r w) as [b [p1 [rc [pc [wd [Eb _]]]]]].
  exists b. split; auto. intros ->. exists i, j. split; auto. rewrite <- Eb.
  unfold fps_isInsidePad. assert (Ew : wrap_down (2 * PI) (wrap_up 0 w) = wrap_down (2 * PI) (wrap_up 0 phi)).
  { fold w. apply wrap_id. apply wrap_window. lra. }
  now rewrite Ew.
Qed.
Lemma fps_inside_any_complete : forall a h l, fps_made a h l -> fps_sane a -> fps_all_rows l ->
  forall i j np, fps_row_size l i np -> (0 <= j < np)%Z -> forall r phi, 1 / 1000000 <= r ->
  fa_rMin a + IZR i * fps_getRowHeight l i < r < fa_rMin a + (IZR i + 1) * fps_getRowHeight l i ->
  IZR j * (fa_phiMax a / IZR np) < phi < (IZR j + 1) * (fa_phiMax a / IZR np) ->
  fps_isInsideAnyPad l r phi = fps_isInsidePad l r phi (code i j).
Proof.
  intros a h l HM HS HA i j np Hsz Hj r phi Hr6 Hr Hphi. pose proof (fps_made_rep _ _ _ HM) as HR.
  destruct (fps_size_row a l i np HR Hsz ltac:(lia)) as [row [Hi [Hrow En]]].
  assert (Hil : (Z.to_nat i < List.length (f_rows l))%nat) by (apply nth_error_Some; congruence).
  pose proof (fr_len a l HR) as Hlen.
  destruct (fps_all_row a l i HR HA ltac:(lia)) as [row' [Hr' [Hp Hi6]]].
  rewrite Hrow in Hr'. injection Hr' as <-. subst np.
  assert (HV : fps_valid l i j) by (exists (f_NPad row); split; auto; lia).
  pose proof (fphi_sane a HS) as Ephi. assert (Hph := proj2 (proj2 HS)).
  destruct (fps_pad_geometry a h l HM HS i j HV) as [np2 [Hsz2 [Hj2 [_ [_ [_ [_ [Hh [_ [Q1 [Q2 [Q3 [Q4 _]]]]]]]]]]]]].
  assert (np2 = f_NPad row) by (destruct Hsz2 as [? [? [Z1 Z2]]]; destruct Hsz as [? [? [Z3 Z4]]]; rewrite Z1 in Z3; injection Z3 as _ <-; lia). subst np2.
  unfold fps_isInsideAnyPad. rewrite (fr_rMin a l HR), (fr_rMax a l HR).
  destruct (Rltb_spec r (fa_rMin a)) as [C|C]; [lra|]. destruct (Rltb_spec (fa_rMax a) r) as [D|D]; [lra|]. cbn [orb].
  rewrite wrap_id by lra. rewrite fps_nearest_area1; auto; rewrite fps_turn_id by lra; [|rewrite (fr_phi a l HR), Ephi; lra].
  unfold fps_getRowHeight in *.
  replace (fps_area1 l r phi) with (Ok (A := Z) (code i j)); [reflexivity|]. symmetry.
  rewrite <- (Z2Nat.id i) by lia. apply (fps_area1_val a l r phi (Z.to_nat i) row j); auto; try lia; try lra; rewrite ?Ephi; try lra.
  right. rewrite (fr_rMin a l HR). split; [lra|]. exists i. split; [unfold int_ok; lia|]. split; [lra|].
  rewrite Z2Nat.id by lia. destruct (Z.leb_spec (f_nRow l) i); lia.
Qed.
