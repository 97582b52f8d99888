(** The rectangular layout in double arithmetic: rounding errors. *)
From Coq Require Import ZArith List String Bool Reals Lra Lia.
From Flocq Require Import Core Relative.
From Verif Require Import Base RBase ListExtra NumModel NumSpec NumProofs FpModel FpSpec FpProofs
  RectModel RectSpec RectProofs RectProofs2 RectProofs3 FpRectModel FpRectSpec FpRectProofs FpRectProofs2.
Import ListNotations.
Open Scope R_scope.

Lemma ulp1_val : 0 < ulp1 <= / 9007199254740992. Proof. unfold ulp1. lra. Qed.
Lemma fadd_err x y : is_double x -> is_double y -> Rabs (fadd x y - (x + y)) <= ulp1 * Rabs (x + y).
Proof. intros. apply rel_grid, grid_plus; now apply grid_double. Qed.
Lemma fsub_err x y : is_double x -> is_double y -> Rabs (fsub x y - (x - y)) <= ulp1 * Rabs (x - y).
Proof. intros. apply rel_grid, grid_minus; now apply grid_double. Qed.
Lemma tiny_normal v k : powerRZ 2 (-500) <= v -> (0 < k <= 2147483648)%Z -> bpow radix2 (-1022) <= Rabs (v / IZR k).
Proof.
  intros H K. change 2 with (IZR radix2) in H. rewrite <- bpow_powerRZ in H. pose proof (bpow_gt_0 radix2 (-500)).
  assert (1 <= IZR k <= 2147483648) by (split; apply IZR_le; lia).
  rewrite Rabs_pos_eq by (apply Rmult_le_pos; [lra|apply Rlt_le, Rinv_0_lt_compat; lra]).
  apply Rle_trans with (bpow radix2 (-500) * bpow radix2 (-31)); [rewrite <- bpow_plus; apply bpow_le; lia|].
  apply Rmult_le_compat; try apply bpow_ge_0; [exact H|]. replace (bpow radix2 (-31)) with (/ 2147483648) by (cbn; lra).
  apply Rinv_le; lra.
Qed.

(** ** the y direction *)
Lemma bottoms_between y0 E M i : Forall (fun s => 0 <= s_h s) E -> Rabs y0 <= M -> Rabs (y0 + heights E) <= M ->
  (i <= List.length E)%nat -> Rabs (bottom y0 E i) <= M.
Proof.
  intros HE H0 H1 Hi. apply Rabs_le_inv in H0, H1. apply Rabs_le.
  pose proof (bottom_mono y0 E 0 i HE ltac:(lia)) as B0. pose proof (bottom_mono y0 E i (List.length E) HE Hi) as B1.
  rewrite bottom_0 in B0. rewrite bottom_all in B1. lra.
Qed.
Lemma INR_small i : (Z.of_nat i <= 65536)%Z -> 0 <= INR i <= 65536.
Proof. intros H. split; [apply pos_INR|]. rewrite INR_IZR_INZ. now apply IZR_le. Qed.
Lemma edge_err : forall y0 E M, is_double y0 -> Forall (fun s => 0 <= s_h s /\ is_double (s_h s)) E ->
  Rabs y0 <= M -> Rabs (y0 + heights E) <= M -> (Z.of_nat (List.length E) <= 65536)%Z ->
  forall i, (i <= List.length E)%nat -> Rabs (edge y0 E i - bottom y0 E i) <= 2 * INR i * M * ulp1.
Proof.
  intros y0 E M D HE H0 H1 HL i. induction i; intros Hi.
  - rewrite edge_0, bottom_0. cbn [INR]. replace (y0 - y0) with 0 by ring. rewrite Rabs_R0. lra.
  - destruct (nth_error E i) as [s|] eqn:Es; [|apply nth_error_None in Es; lia].
    rewrite (edge_S _ _ _ _ Es), (bottom_S _ _ _ _ Es), S_INR.
    assert (HE' : Forall (fun s => 0 <= s_h s) E) by (eapply Forall_impl; [|exact HE]; cbn; tauto).
    destruct (proj1 (Forall_forall _ _) HE s (nth_error_In _ _ Es)) as (P & DS).
    specialize (IHi ltac:(lia)). pose proof (fadd_err (edge y0 E i) (s_h s) (edge_double _ _ _ D) DS) as F.
    pose proof (bottoms_between y0 E M (S i) HE' H0 H1 Hi) as B. rewrite (bottom_S _ _ _ _ Es) in B.
    pose proof (INR_small i ltac:(lia)) as I. pose proof ulp1_val as U.
    assert (M0 : 0 <= M) by (eapply Rle_trans; [apply Rabs_pos|exact H0]).
    apply Rabs_le_inv in B, IHi.
    assert (T : 2 * INR i * M * ulp1 <= M / 1000).
    { apply Rle_trans with (2 * 65536 * M * / 9007199254740992); [|lra].
      apply Rmult_le_compat; try lra; [nra|]. apply Rmult_le_compat_r; lra. }
    assert (S2 : Rabs (edge y0 E i + s_h s) <= 2 * M) by (apply Rabs_le; lra).
    apply Rabs_le_inv in F. assert (ulp1 * Rabs (edge y0 E i + s_h s) <= 2 * M * ulp1) by nra.
    apply Rabs_le. lra.
Qed.
Lemma rnd_zero_small v : 0 <= v -> to_double v = 0 -> v <= bpow radix2 (-1074).
Proof.
  intros P H. destruct (Rle_or_lt v (bpow radix2 (-1074))) as [|L]; [assumption|exfalso].
  pose proof (rnd_lo _ v bpow_min_double (Rlt_le _ _ L)). pose proof (bpow_gt_0 radix2 (-1074)). lra.
Qed.
Lemma min_small : bpow radix2 (-1074) <= ulp1 / 16.
Proof. replace (ulp1 / 16) with (bpow radix2 (-57)) by (unfold ulp1; cbn; lra). apply bpow_le. lia. Qed.

Lemma up_zero rem y c e h : (1 <= rem < 2 ^ 53)%Z -> is_double h -> y <= e -> h < fsub y c ->
  Zceil (up_param rem y c e h) = 0%Z -> fsub (fsub y c) h <= fsub (fsub e c) h * (ulp1 / 16).
Proof.
  intros Hr Hh Hy Hlt Z0. destruct (up_param_range rem y c e h ltac:(lia) Hh Hy Hlt) as (P & Q).
  pose proof (Zceil_ub (up_param rem y c e h)) as U. rewrite Z0 in U. assert (V : up_param rem y c e h = 0) by lra.
  unfold up_param, fmul in V. set (a := fsub (fsub y c) h) in *. set (b := fsub (fsub e c) h) in *.
  assert (AB : 0 <= a / b) by (apply Rmult_le_pos; [lra|apply Rlt_le, Rinv_0_lt_compat; lra]).
  assert (W : fdiv a b = 0).
  { destruct (Req_dec (fdiv a b) 0) as [|N]; [assumption|exfalso].
    assert (0 <= fdiv a b) by now apply rnd_nonneg. assert (1 <= IZR rem) by (apply IZR_le; lia).
    pose proof (rnd_pos (IZR rem * fdiv a b) (grid_mult _ _ (grid_double _ (rnd_double _))) ltac:(nra)). lra. }
  pose proof (rnd_zero_small _ AB W) as X. pose proof min_small as Y.
  replace a with (a / b * b) by (field; lra). rewrite (Rmult_comm b). apply Rmult_le_compat_r; lra.
Qed.
Lemma down_zero rem y c e h : (1 <= rem < 2 ^ 53)%Z -> is_double h -> e <= y -> h < fsub c y ->
  Zceil (down_param rem y c e h) = 0%Z -> fsub (fsub c y) h <= fsub (fsub c e) h * (ulp1 / 16).
Proof.
  intros Hr Hh Hy Hlt Z0. destruct (down_param_range rem y c e h ltac:(lia) Hh Hy Hlt) as (P & Q).
  pose proof (Zceil_ub (down_param rem y c e h)) as U. rewrite Z0 in U. assert (V : down_param rem y c e h = 0) by lra.
  unfold down_param, fmul in V. set (a := fsub (fsub c y) h) in *. set (b := fsub (fsub c e) h) in *.
  assert (AB : 0 <= a / b) by (apply Rmult_le_pos; [lra|apply Rlt_le, Rinv_0_lt_compat; lra]).
  assert (W : fdiv a b = 0).
  { destruct (Req_dec (fdiv a b) 0) as [|N]; [assumption|exfalso].
    assert (0 <= fdiv a b) by now apply rnd_nonneg. assert (1 <= IZR rem) by (apply IZR_le; lia).
    pose proof (rnd_pos (IZR rem * fdiv a b) (grid_mult _ _ (grid_double _ (rnd_double _))) ltac:(nra)). lra. }
  pose proof (rnd_zero_small _ AB W) as X. pose proof min_small as Y.
  replace a with (a / b * b) by (field; lra). rewrite (Rmult_comm b). apply Rmult_le_compat_r; lra.
Qed.

Lemma fsub_upper x y t : is_double x -> is_double y -> 0 <= t -> fsub x y <= t -> x - y <= t * (1 + 2 * ulp1).
Proof.
  intros X Y T H. pose proof (fsub_err x y X Y) as F. pose proof ulp1_val as U.
  destruct (Rle_or_lt (x - y) 0) as [|L]; [nra|]. rewrite (Rabs_pos_eq (x - y)) in F by lra. apply Rabs_le_inv in F.
  assert ((x - y) * (1 - ulp1) <= t) by lra.
  assert ((x - y) * ((1 - ulp1) * (1 + 2 * ulp1)) <= t * (1 + 2 * ulp1)) by nra.
  assert (1 <= (1 - ulp1) * (1 + 2 * ulp1)) by (unfold ulp1; lra). nra.
Qed.
Lemma fsub_lower x y t : is_double x -> is_double y -> 0 <= t -> t < fsub x y -> t * (1 - ulp1) < x - y.
Proof.
  intros X Y T H. pose proof (fsub_err x y X Y) as F. pose proof ulp1_val as U.
  destruct (Rle_or_lt (x - y) 0) as [L|L].
  - exfalso. assert (fsub x y <= 0); [|lra]. rewrite <- rnd_0. apply rnd_le. lra.
  - rewrite (Rabs_pos_eq (x - y)) in F by lra. apply Rabs_le_inv in F.
    assert (t < (x - y) * (1 + ulp1)) by lra.
    assert (t * (1 - ulp1) < (x - y) * (1 + ulp1) * (1 - ulp1)) by (apply Rmult_lt_compat_r; lra).
    assert ((1 + ulp1) * (1 - ulp1) <= 1) by nra. nra.
Qed.

Section errors.
Variables (x0 x1 y0 : R) (E : list srow) (rp : bool) (l : rect).
Hypothesis HR : drep x0 x1 y0 E rp l.
Hypothesis HF : full_height E.
Hypothesis HN : (Z.of_nat (List.length E) <= 65536)%Z.
Hypothesis D0 : is_double y0.
Hypothesis HT : Forall (fun s => not_tiny (s_h s)) E.
Variable M : R.
Hypothesis M0 : Rabs y0 <= M.
Hypothesis M1 : Rabs (y0 + heights E) <= M.
Let n := Z.of_nat (List.length E).
Let eT := top_edge y0 E.

Lemma goods : Forall (fun s => 0 <= s_h s /\ is_double (s_h s)) E.
Proof. eapply Forall_impl; [|apply (dr_good _ _ _ _ _ _ HR)]. intros s G. split; apply G. Qed.
Lemma goods' : Forall (fun s => 0 <= s_h s) E.
Proof. eapply Forall_impl; [|apply goods]. cbn. tauto. Qed.
Lemma M_pos : 0 <= M. Proof. eapply Rle_trans; [apply Rabs_pos|exact M0]. Qed.
Lemma row_facts i s : nth_error E i = Some s ->
  0 < s_h s <= 2 * M /\ is_double (s_h s) /\ Rabs (hh s - s_h s / 2) <= ulp1 * (s_h s / 2) /\
  Rabs (bottom y0 E i) <= M /\ Rabs (bottom y0 E i + s_h s) <= M /\ (i < List.length E)%nat.
Proof.
  intros H. assert (Hi : (i < List.length E)%nat) by (apply nth_error_Some; congruence).
  destruct (proj1 (Forall_forall _ _) goods s (nth_error_In _ _ H)) as (P & D).
  pose proof (proj1 (Forall_forall _ _) HT s (nth_error_In _ _ H)) as T. unfold not_tiny in T.
  assert (0 < powerRZ 2 (-500)) by (apply powerRZ_lt; lra).
  pose proof (bottoms_between y0 E M i goods' M0 M1 ltac:(lia)) as B.
  pose proof (bottoms_between y0 E M (S i) goods' M0 M1 ltac:(lia)) as B1. rewrite (bottom_S _ _ _ _ H) in B1.
  repeat split; auto; try lra.
  - apply Rabs_le_inv in B, B1. lra.
  - pose proof (rel_normal (s_h s / 2) (tiny_normal _ 2 T ltac:(lia))) as F. rewrite (Rabs_pos_eq (s_h s / 2)) in F by lra. exact F.
Qed.
Lemma edge_near i : (i <= List.length E)%nat -> Rabs (edge y0 E i - bottom y0 E i) <= 2 * INR i * M * ulp1.
Proof. apply (edge_err y0 E M D0 goods M0 M1 HN). Qed.
Lemma small_err i : (i <= List.length E)%nat -> 0 <= 2 * INR i * M * ulp1 <= M / 1000.
Proof.
  intros Hi. pose proof (INR_small i ltac:(lia)) as I. pose proof ulp1_val as U. pose proof M_pos as MP.
  split; [repeat apply Rmult_le_pos; lra|]. apply Rle_trans with (2 * 65536 * M * / 9007199254740992); [|lra].
  apply Rmult_le_compat; try lra; [nra|]. apply Rmult_le_compat_r; lra.
Qed.
Lemma centre_near i s : nth_error E i = Some s ->
  Rabs (dcentre y0 E i s - (bottom y0 E i + s_h s / 2)) <= (2 * INR i + 4) * M * ulp1.
Proof.
  intros H. destruct (row_facts _ _ H) as (P & D & F & B0 & B1 & Hi).
  pose proof (edge_near i ltac:(lia)) as G. pose proof (small_err i ltac:(lia)) as I. pose proof ulp1_val as U. pose proof M_pos as MP.
  unfold dcentre. pose proof (fadd_err (edge y0 E i) (hh s) (edge_double _ _ _ D0) (rnd_double _)) as K.
  apply Rabs_le_inv in G, F, B0, B1.
  assert (ulp1 * (s_h s / 2) <= M * ulp1) by nra.
  assert (M * ulp1 <= M / 1000) by (unfold ulp1; lra).
  assert (S2 : Rabs (edge y0 E i + hh s) <= 2 * M) by (apply Rabs_le; lra).
  assert (ulp1 * Rabs (edge y0 E i + hh s) <= 2 * M * ulp1) by nra.
  apply Rabs_le_inv in K. apply Rabs_le. lra.
Qed.
Lemma top_near : Rabs (eT - (y0 + heights E)) <= 2 * INR (List.length E) * M * ulp1.
Proof. pose proof (edge_near (List.length E) ltac:(lia)) as G. rewrite bottom_all in G. exact G. Qed.

Lemma centre_double i s : is_double (dcentre y0 E i s). Proof. apply rnd_double. Qed.
Lemma hh_double s : is_double (hh s). Proof. apply rnd_double. Qed.

Lemma stops_near y i : is_double y -> y0 <= y <= eT -> stops y0 E y i ->
  exists s, nth_error E i = Some s /\
    bottom y0 E i - (2 * INR (List.length E) + 14) * M * ulp1 <= y <=
    bottom y0 E i + s_h s + (2 * INR (List.length E) + 14) * M * ulp1.
Proof.
  intros DY Hy (s & H & C). exists s. split; [exact H|].
  destruct (row_facts _ _ H) as (P & D & F & B0 & B1 & Hi). pose proof (centre_near _ _ H) as CN.
  pose proof ulp1_val as U. pose proof M_pos as MP. pose proof (small_err i ltac:(lia)) as I.
  assert (DE : is_double eT) by now apply edge_double.
  set (c := dcentre y0 E i s) in *. assert (DC : is_double c) by apply centre_double.
  assert (IN : INR i + 1 <= INR (List.length E)) by (rewrite <- S_INR; apply le_INR; lia).
  set (N := INR (List.length E)) in *.
  assert (IP : 0 <= INR i) by apply pos_INR.
  assert (TT : (2 * INR i + 4) * M * ulp1 <= (2 * N + 2) * M * ulp1) by (apply Rmult_le_compat_r; [lra|]; apply Rmult_le_compat_r; lra).
  assert (MU : 0 <= M * ulp1 <= M / 1000) by (unfold ulp1; lra).
  apply Rabs_le_inv in CN, F, B0, B1.
  assert (HHU : 0 <= hh s) by (apply hh_nonneg; lra).
  assert (F2 : ulp1 * (s_h s / 2) <= M * ulp1) by nra.
  assert (HH2 : hh s <= s_h s / 2 + M * ulp1) by lra.
  assert (HHS : hh s <= 2 * M) by lra.
  assert (HH1 : 0 <= hh s * (1 - ulp1)) by (apply Rmult_le_pos; lra).
  assert (K1 : (2 * INR i + 4) * M * ulp1 <= M / 100) by (unfold ulp1 in *; lra).
  assert (HHE : hh s * (1 + 2 * ulp1) <= s_h s / 2 + 5 * (M * ulp1)) by (assert (hh s * ulp1 <= 2 * M * ulp1) by (apply Rmult_le_compat_r; lra); lra).
  destruct C as [A|[(A & Z0)|(A & Z0)]].
  - (* accepted *)
    apply Rabs_le_inv in A. pose proof (fsub_upper y c (hh s) DY DC HHU ltac:(lra)) as A1.
    pose proof (fsub_upper c y (hh s) DC DY HHU) as A2. rewrite (fsub_flip c y) in A2. specialize (A2 ltac:(lra)). lra.
  - (* stopped going up *)
    pose proof (fsub_lower y c (hh s) DY DC HHU A) as LO.
    assert (LO2 : c <= y) by lra.
    split; [lra|].
    destruct (Z.eq_dec (n - Z.of_nat i - 1) 0) as [L|L].
    + pose proof top_near as TN. fold N in TN. apply Rabs_le_inv in TN.
      assert (LL : List.length E = S i) by (unfold n in L; lia).
      assert (y0 + heights E = bottom y0 E i + s_h s) as BT by (rewrite <- bottom_all, LL; apply bottom_S; exact H). lra.
    + pose proof (up_zero (n - Z.of_nat i - 1) y c eT (hh s) ltac:(unfold n in *; lia) (hh_double s) (proj2 Hy) A Z0) as UZ.
      assert (EC : eT - c <= 4 * M).
      { pose proof top_near as TN. fold N in TN. apply Rabs_le_inv in TN, M1. pose proof (small_err (List.length E) ltac:(lia)) as I2. fold N in I2.
        assert (- 2 * M <= c) by lra. lra. }
      assert (B : fsub (fsub eT c) (hh s) <= 6 * M).
      { apply Rle_trans with (to_double (fsub eT c)); [apply rnd_le; lra|]. rewrite rnd_id by apply rnd_double.
        pose proof (fsub_err eT c DE DC) as FE. apply Rabs_le_inv in FE.
        assert (c <= eT) by lra. rewrite (Rabs_pos_eq (eT - c)) in FE by lra. assert (ulp1 * (eT - c) <= ulp1 * (4 * M)) by (apply Rmult_le_compat_l; lra). lra. }
      assert (AA : fsub (fsub y c) (hh s) <= M * ulp1 / 2) by (eapply Rle_trans; [exact UZ|]; apply Rle_trans with (6 * M * (ulp1 / 16)); [apply Rmult_le_compat_r; lra|lra]).
      pose proof (fsub_upper (fsub y c) (hh s) (M * ulp1 / 2) (rnd_double _) (hh_double s) ltac:(lra) AA) as A3.
      assert (A4 : fsub y c <= hh s + M * ulp1) by (unfold ulp1 in *; lra).
      pose proof (fsub_upper y c (hh s + M * ulp1) DY DC ltac:(lra) A4) as A5. assert (M * ulp1 * (1 + 2 * ulp1) <= 2 * (M * ulp1)) by (unfold ulp1; lra). lra.
  - (* stopped going down *)
    pose proof (fsub_lower c y (hh s) DC DY HHU A) as LO.
    assert (LO2 : y <= c) by lra.
    split; [|lra].
    destruct (Z.eq_dec (Z.of_nat i) 0) as [L|L].
    + assert (i = 0)%nat as -> by lia. rewrite bottom_0. lra.
    + pose proof (down_zero (Z.of_nat i) y c y0 (hh s) ltac:(unfold n in *; lia) (hh_double s) (proj1 Hy) A Z0) as UZ.
      assert (EC : c - y0 <= 4 * M) by (apply Rabs_le_inv in M0; lra).
      assert (B : fsub (fsub c y0) (hh s) <= 6 * M).
      { apply Rle_trans with (to_double (fsub c y0)); [apply rnd_le; lra|]. rewrite rnd_id by apply rnd_double.
        pose proof (fsub_err c y0 DC D0) as FE. apply Rabs_le_inv in FE.
        assert (y0 <= c) by lra. rewrite (Rabs_pos_eq (c - y0)) in FE by lra. assert (ulp1 * (c - y0) <= ulp1 * (4 * M)) by (apply Rmult_le_compat_l; lra). lra. }
      assert (AA : fsub (fsub c y) (hh s) <= M * ulp1 / 2) by (eapply Rle_trans; [exact UZ|]; apply Rle_trans with (6 * M * (ulp1 / 16)); [apply Rmult_le_compat_r; lra|lra]).
      pose proof (fsub_upper (fsub c y) (hh s) (M * ulp1 / 2) (rnd_double _) (hh_double s) ltac:(lra) AA) as A3.
      assert (A4 : fsub c y <= hh s + M * ulp1) by (unfold ulp1 in *; lra).
      pose proof (fsub_upper c y (hh s + M * ulp1) DC DY ltac:(lra) A4) as A5. assert (M * ulp1 * (1 + 2 * ulp1) <= 2 * (M * ulp1)) by (unfold ulp1; lra). lra.
Qed.
End errors.
