(** The rectangular layout in double arithmetic, rows of equal height: when the row search ends. *)
From Coq Require Import ZArith List String Bool Reals Lra Lia.
From Flocq Require Import Core Relative.
From Verif Require Import Base RBase ListExtra NumModel NumSpec NumProofs FpModel FpSpec FpProofs
  RectModel RectSpec RectProofs RectProofs2 RectProofs3 FpRectModel FpRectSpec FpRectProofs FpRectProofs2 FpRectProofs3 FpRectProofs4.
Import ListNotations.
Open Scope R_scope.

Lemma bpow_double e : (-1074 <= e)%Z -> is_double (bpow radix2 e).
Proof. intros H. exists 1%Z, e. split; [rewrite bpow_powerRZ; change (IZR radix2) with 2; ring|]. split; [reflexivity|exact H]. Qed.
Lemma quot_pos a b : 0 < b -> b * bpow radix2 (-1000) <= a -> 0 < fdiv a b.
Proof.
  intros B H. apply Rlt_le_trans with (bpow radix2 (-1000)); [apply bpow_gt_0|].
  apply rnd_lo; [apply bpow_double; lia|]. apply (Rmult_le_reg_r b); [exact B|]. unfold Rdiv. rewrite Rmult_assoc, Rinv_l by lra. lra.
Qed.
(** two doubles that differ, differ by their last digit *)
Lemma gap_doubles x y : is_double x -> is_double y -> 0 <= x -> x < y -> x * ulp1 <= y - x.
Proof.
  intros X Y P L. apply double_format in X, Y. assert (PG : Prec_gt_0 53) by reflexivity.
  pose proof (@succ_le_lt radix2 (FLT_exp (-1074) 53) (FLT_exp_valid (-1074) 53) x y X Y L) as S. rewrite succ_eq_pos in S by exact P.
  pose proof (ulp_FLT_gt radix2 (-1074) 53 x) as G. rewrite Rabs_pos_eq in G by exact P.
  change (bpow radix2 (- (53))) with ulp1 in G. lra.
Qed.
Lemma param_near rem a b t H T : 0 < a <= b -> (1 <= rem)%Z -> Rabs (a - t) <= T -> Rabs (b - IZR rem * H) <= T ->
  0 < H -> 4 * (IZR rem * H * ulp1) <= T -> Rabs (fmul (IZR rem) (fdiv a b) * H - t) <= 3 * T.
Proof.
  intros AB R A B HP HT. assert (R1 : 1 <= IZR rem) by (apply IZR_le; lia). pose proof ulp1_val as U.
  assert (Q : 0 <= a / b <= 1).
  { split; [apply Rmult_le_pos; [lra|apply Rlt_le, Rinv_0_lt_compat; lra]|]. apply (Rmult_le_reg_r b); [lra|]. unfold Rdiv. rewrite Rmult_assoc, Rinv_l; lra. }
  assert (AE : a = a / b * b) by (field; lra).
  set (q := a / b) in *. pose proof (rnd_rel q) as F. rewrite (Rabs_pos_eq q) in F by lra.
  assert (QD : 0 <= fdiv a b <= 1) by (split; [now apply rnd_nonneg|apply rnd_up; [apply double_1|unfold q in *; lra]]).
  assert (FQ : Rabs (fdiv a b - q) <= 2 * ulp1) by (unfold fdiv; fold q; unfold ulp1; lra).
  set (d := fdiv a b) in *.
  assert (G : Rabs (fmul (IZR rem) d - IZR rem * d) <= ulp1 * IZR rem).
  { pose proof (rel_grid (IZR rem * d) (grid_mult _ _ (grid_double _ (rnd_double _)))) as G. unfold fmul. eapply Rle_trans; [exact G|].
    apply Rmult_le_compat_l; [lra|]. assert (0 <= IZR rem * d <= IZR rem * 1) by (split; [apply Rmult_le_pos; lra|apply Rmult_le_compat_l; lra]). rewrite Rabs_pos_eq; lra. }
  set (p := fmul (IZR rem) d) in *.
  assert (E1 : Rabs (p - IZR rem * q) <= 3 * (IZR rem * ulp1)).
  { assert (Rabs (IZR rem * d - IZR rem * q) <= IZR rem * (2 * ulp1)).
    { replace (IZR rem * d - IZR rem * q) with (IZR rem * (d - q)) by ring. rewrite Rabs_mult, (Rabs_pos_eq (IZR rem)) by lra. apply Rmult_le_compat_l; lra. }
    apply Rabs_le_inv in G, H0. apply Rabs_le. lra. }
  assert (E2 : Rabs (p * H - IZR rem * q * H) <= T).
  { replace (p * H - IZR rem * q * H) with ((p - IZR rem * q) * H) by ring. rewrite Rabs_mult, (Rabs_pos_eq H) by lra.
    apply Rle_trans with (3 * (IZR rem * ulp1) * H); [apply Rmult_le_compat_r; lra|]. assert (0 <= IZR rem * H * ulp1) by (repeat apply Rmult_le_pos; lra). lra. }
  assert (E3 : Rabs (IZR rem * q * H - a) <= T).
  { rewrite AE. replace (IZR rem * q * H - q * b) with (- (q * (b - IZR rem * H))) by ring. rewrite Rabs_Ropp, Rabs_mult, (Rabs_pos_eq q) by lra.
    pose proof (Rabs_pos (b - IZR rem * H)). apply Rle_trans with (1 * Rabs (b - IZR rem * H)); [apply Rmult_le_compat_r; lra|lra]. }
  apply Rabs_le_inv in E2, E3, A. apply Rabs_le. lra.
Qed.

Section equal.
Variables (x0 x1 y0 : R) (E : list srow) (rp : bool) (l : rect).
Hypothesis HR : drep x0 x1 y0 E rp l.
Hypothesis HF : full_height E.
Hypothesis HN : (Z.of_nat (List.length E) <= 65536)%Z.
Hypothesis D0 : is_double y0.
Variable H : R.
Hypothesis HU : Forall (fun s => s_h s = H) E.
Hypothesis HT : not_tiny H.
Variable M : R.
Hypothesis M0 : Rabs y0 <= M.
Hypothesis M1 : Rabs (y0 + heights E) <= M.
Let N := List.length E.
Let n := Z.of_nat (List.length E).
Let eT := top_edge y0 E.
Let T := tol_y (List.length E) M.
Hypothesis HS : 64 * T <= H.

Lemma eq_tiny : Forall (fun s => not_tiny (s_h s)) E.
Proof. eapply Forall_impl; [|exact HU]. cbn. intros s ->. exact HT. Qed.
Lemma eq_pos : 0 < H.
Proof. pose proof (powerRZ_lt 2 (-500) ltac:(lra)). unfold not_tiny in HT. lra. Qed.
Lemma eq_h i s : nth_error E i = Some s -> s_h s = H.
Proof. intros K. apply (proj1 (Forall_forall _ _) HU). eapply nth_error_In; eauto. Qed.
Lemma eq_bottom i : (i <= N)%nat -> bottom y0 E i = y0 + INR i * H.
Proof.
  induction i; intros Hi; [rewrite bottom_0; cbn [INR]; lra|].
  destruct (nth_error E i) as [s|] eqn:Hs; [|apply nth_error_None in Hs; unfold N in *; lia].
  rewrite (bottom_S _ _ _ _ Hs), IHi by lia. rewrite S_INR, (eq_h _ _ Hs). lra.
Qed.
Lemma eq_heights : heights E = INR N * H.
Proof. pose proof (eq_bottom N (le_n _)) as K. unfold N in K at 1. rewrite bottom_all in K. lra. Qed.
Lemma MM : 0 <= M. Proof. eapply Rle_trans; [apply Rabs_pos|exact M0]. Qed.
(** all rounding errors, in units of [M * ulp1] *)
Let m := M * ulp1.
Lemma m_T : 0 <= m /\ 0 <= INR N * m /\ T = 4 * (INR N * m) + 16 * m /\ M / 1000 >= m.
Proof.
  pose proof MM. pose proof ulp1_val. assert (0 <= m) by (apply Rmult_le_pos; lra). split; [assumption|].
  split; [apply Rmult_le_pos; [apply pos_INR|assumption]|]. split; [unfold T, tol_y, m, N; ring|]. unfold m, ulp1. lra.
Qed.
Lemma eq_facts i s : nth_error E i = Some s -> let c := dcentre y0 E i s in
  (i < N)%nat /\ 0 < H <= 2 * M /\ Rabs (hh s - H / 2) <= m /\ 0 <= hh s /\
  Rabs (c - (bottom y0 E i + H / 2)) <= 2 * (INR N * m) + 4 * m /\
  Rabs (bottom y0 E i) <= M /\ Rabs (bottom y0 E i + H) <= M /\ Rabs (eT - (y0 + INR N * H)) <= 2 * (INR N * m) /\
  INR N * m <= M / 1000 /\ INR N * H <= 2 * M /\ H * (1 - ulp1) <= 2 * hh s.
Proof.
  intros K c. pose proof (row_facts _ _ _ _ _ _ HR eq_tiny M M0 M1 _ _ K) as (P & D & F & B0 & B1 & Hi).
  rewrite (eq_h _ _ K) in *. pose proof (centre_near _ _ _ _ _ _ HR HN D0 eq_tiny M M0 M1 _ _ K) as C. rewrite (eq_h _ _ K) in C.
  pose proof (top_near _ _ _ _ _ _ HR HN D0 M M0 M1) as TN. fold N eT in TN. rewrite eq_heights in TN.
  pose proof m_T as (Q0 & Q1 & Q2 & Q3). pose proof ulp1_val. 
  assert (IN : INR i * m <= INR N * m) by (apply Rmult_le_compat_r; [lra|apply le_INR; unfold N; lia]).
  assert (ulp1 * (H / 2) <= m) by (unfold m; nra).
  replace ((2 * INR i + 4) * M * ulp1) with (2 * (INR i * m) + 4 * m) in C by (unfold m; ring).
  replace (2 * INR N * M * ulp1) with (2 * (INR N * m)) in TN by (unfold m; ring).
  assert (INR N * m <= M / 1000).
  { pose proof (INR_small N HN) as I. apply Rle_trans with (65536 * m); [apply Rmult_le_compat_r; lra|]. unfold m, ulp1. pose proof MM. lra. }
  pose proof M1 as M1'. rewrite eq_heights in M1'. apply Rabs_le_inv in M1'. pose proof M0 as M0'. apply Rabs_le_inv in M0'.
  fold c in C.
  split; [exact Hi|]. split; [lra|]. split; [lra|]. split; [apply hh_nonneg; rewrite (eq_h _ _ K); lra|]. split; [lra|]. split; [exact B0|]. split; [exact B1|]. split; [lra|]. split; [lra|]. split; [lra|].
  apply Rabs_le_inv in F. lra.
Qed.

Lemma eT_small i s : nth_error E i = Some s -> Rabs eT <= M + M / 500.
Proof.
  intros K. destruct (eq_facts _ _ K) as (Hi & HP & _ & _ & _ & _ & _ & TN & IM & _). pose proof M1 as M1'. rewrite eq_heights in M1'.
  apply Rabs_le_inv in M1', TN. pose proof MM. apply Rabs_le. lra.
Qed.
(** a difference of two numbers of the plane, less half a height *)
Lemma diff_near u v h : is_double u -> is_double v -> is_double h -> Rabs u <= M + M / 500 -> Rabs v <= M + M / 100 -> 0 <= h <= M + M / 100 ->
  h <= fsub u v -> Rabs (fsub (fsub u v) h - (u - v - h)) <= 5 * m.
Proof.
  intros DU DV DH U V HB HL. pose proof (fsub_err u v DU DV) as F1. pose proof (fsub_err (fsub u v) h (rnd_double _) DH) as F2.
  pose proof ulp1_val as UL. pose proof MM as MP. pose proof m_T as (Q0 & _ & _ & Q3).
  apply Rabs_le_inv in U, V. assert (UV : Rabs (u - v) <= 2 * M + M / 50) by (apply Rabs_le; lra).
  assert (E1 : ulp1 * Rabs (u - v) <= 2 * m + m / 50) by (apply Rle_trans with (ulp1 * (2 * M + M / 50)); [apply Rmult_le_compat_l; lra|unfold m; lra]).
  assert (FB : Rabs (fsub u v) <= 2 * M + M / 40).
  { apply Rabs_le_inv in F1, UV. apply Rabs_le. lra. }
  apply Rabs_le_inv in FB. assert (F3 : Rabs (fsub u v - h) <= 2 * M + M / 40) by (apply Rabs_le; lra).
  assert (E2 : ulp1 * Rabs (fsub u v - h) <= 2 * m + m / 40) by (apply Rle_trans with (ulp1 * (2 * M + M / 40)); [apply Rmult_le_compat_l; lra|unfold m; lra]).
  apply Rabs_le_inv in F1, F2. apply Rabs_le. lra.
Qed.
Definition near (y : R) (i : nat) : Prop := bottom y0 E i - 4 * T <= y <= bottom y0 E i + H + 4 * T.

Lemma above i s y : nth_error E i = Some s -> is_double y -> hh s < fsub y (dcentre y0 E i s) -> bottom y0 E i + H - T < y.
Proof.
  intros K DY A. destruct (eq_facts _ _ K) as (Hi & HP & F & HH & C & B0 & B1 & TN & IM & NH & _).
  pose proof (fsub_lower y _ (hh s) DY (centre_double _ _ _ _) HH A) as L. pose proof ulp1_val. pose proof m_T as (Q0 & Q1 & Q2 & Q3).
  apply Rabs_le_inv in F, C. assert (hh s * ulp1 <= 2 * m) by (apply Rle_trans with (2 * M * ulp1); [apply Rmult_le_compat_r; lra|unfold m; lra]). lra.
Qed.
Lemma below i s y : nth_error E i = Some s -> is_double y -> hh s < fsub (dcentre y0 E i s) y -> y < bottom y0 E i + T.
Proof.
  intros K DY A. destruct (eq_facts _ _ K) as (Hi & HP & F & HH & C & B0 & B1 & TN & IM & NH & _).
  pose proof (fsub_lower _ y (hh s) (centre_double _ _ _ _) DY HH A) as L. pose proof ulp1_val. pose proof m_T as (Q0 & Q1 & Q2 & Q3).
  apply Rabs_le_inv in F, C. assert (hh s * ulp1 <= 2 * m) by (apply Rle_trans with (2 * M * ulp1); [apply Rmult_le_compat_r; lra|unfold m; lra]). lra.
Qed.
Lemma accepted i s y : nth_error E i = Some s -> is_double y -> Rabs (fsub y (dcentre y0 E i s)) <= hh s ->
  bottom y0 E i - T <= y <= bottom y0 E i + H + T.
Proof.
  intros K DY A. destruct (eq_facts _ _ K) as (Hi & HP & F & HH & C & B0 & B1 & TN & IM & NH & _).
  apply Rabs_le_inv in A. set (c := dcentre y0 E i s) in *. assert (DC : is_double c) by apply centre_double.
  pose proof (fsub_upper y c (hh s) DY DC HH ltac:(lra)) as A1.
  pose proof (fsub_upper c y (hh s) DC DY HH) as A2. rewrite (fsub_flip c y) in A2. specialize (A2 ltac:(lra)).
  pose proof ulp1_val. pose proof m_T as (Q0 & Q1 & Q2 & Q3).
  apply Rabs_le_inv in F, C. assert (hh s * ulp1 <= 2 * m) by (apply Rle_trans with (2 * M * ulp1); [apply Rmult_le_compat_r; lra|unfold m; lra]). lra.
Qed.
(** the offset is not so small that the quotient becomes zero *)
Lemma not_zero d s b i : nth_error E i = Some s -> is_double d -> hh s < d -> 0 < b <= 8 * M -> 0 < fdiv (fsub d (hh s)) b.
Proof.
  intros K DD L B. apply quot_pos; [lra|]. destruct (eq_facts _ _ K) as (Hi & HP & F & HH & _ & _ & _ & _ & _ & _ & F2).
  pose proof (gap_doubles (hh s) d (hh_double s) DD HH L) as G. pose proof ulp1_val as U.
  pose proof (fsub_err d (hh s) DD (hh_double s)) as FE. rewrite (Rabs_pos_eq (d - hh s)) in FE by lra. apply Rabs_le_inv in FE.
  pose proof m_T as (Q0 & Q1 & Q2 & Q3).
  assert (HM : 1024 * m <= H) by lra.
  assert (FS : (d - hh s) / 2 <= fsub d (hh s)) by (assert ((d - hh s) * ulp1 <= (d - hh s) * (1 / 2)) by (apply Rmult_le_compat_l; unfold ulp1; lra); lra).
  assert (HQ : H / 4 <= hh s) by (assert (H * ulp1 <= H * (1 / 2)) by (apply Rmult_le_compat_l; unfold ulp1; lra); lra).
  assert (GA : H * ulp1 / 8 <= fsub d (hh s)) by (assert (H / 4 * ulp1 <= hh s * ulp1) by (apply Rmult_le_compat_r; lra); lra).
  apply Rle_trans with (8 * M * bpow radix2 (-200)).
  - apply Rmult_le_compat; [lra|apply bpow_ge_0|lra|apply bpow_le; lia].
  - eapply Rle_trans; [|exact GA]. apply Rle_trans with (1024 * m * ulp1 / 8).
    + unfold m. assert (bpow radix2 (-200) <= ulp1 * ulp1).
      { change ulp1 with (bpow radix2 (-53)). rewrite <- bpow_plus. apply bpow_le. lia. }
      assert (M * bpow radix2 (-200) <= M * (ulp1 * ulp1)) by (apply Rmult_le_compat_l; [apply MM|assumption]). 
      assert (0 <= M * (ulp1 * ulp1)) by (apply Rmult_le_pos; [apply MM|apply Rmult_le_pos; lra]). lra.
    + assert (1024 * m * ulp1 <= H * ulp1) by (apply Rmult_le_compat_r; lra). lra.
Qed.
Lemma centre_small i s : nth_error E i = Some s -> Rabs (dcentre y0 E i s) <= M + M / 100.
Proof.
  intros K. destruct (eq_facts _ _ K) as (Hi & HP & F & HH & C & B0 & B1 & TN & IM & NH & _). pose proof MM. pose proof m_T as (Q0 & Q1 & Q2 & Q3).
  apply Rabs_le_inv in C, B0, B1. apply Rabs_le. lra.
Qed.
Lemma hh_small i s : nth_error E i = Some s -> 0 <= hh s <= M + M / 100.
Proof.
  intros K. destruct (eq_facts _ _ K) as (Hi & HP & F & HH & C & B0 & B1 & TN & IM & NH & _). pose proof MM. pose proof m_T as (Q0 & Q1 & Q2 & Q3).
  apply Rabs_le_inv in F. lra.
Qed.
Lemma up_goes i s y f : nth_error E i = Some s -> is_double y -> y0 <= y <= eT -> hh s < fsub y (dcentre y0 E i s) -> (S i < N)%nat ->
  exists j, (i < j < N)%nat /\ near y j /\ dsearch_row (S f) l y (Z.of_nat i) = dsearch_row f l y (Z.of_nat j).
Proof.
  intros K DY Hy A Hr. rewrite (step_up _ _ _ _ _ _ HR HF ltac:(lia) _ _ _ _ K (proj2 Hy) A). cbv zeta. fold n eT.
  destruct (eq_facts _ _ K) as (Hi & HP & F & HH & C & B0 & B1 & TN & IM & NH & _).
  pose proof (centre_small _ _ K) as CS. pose proof (hh_small _ _ K) as HB. pose proof (eT_small _ _ K) as ES.
  set (c := dcentre y0 E i s) in *. assert (DC : is_double c) by apply centre_double. assert (DE : is_double eT) by now apply edge_double.
  destruct (up_param_range (n - Z.of_nat i - 1) y c eT (hh s) ltac:(unfold n; lia) (hh_double s) (proj2 Hy) A) as (P1 & P2).
  pose proof MM as MP. pose proof m_T as (Q0 & Q1 & Q2 & Q3). pose proof ulp1_val as U.
  assert (YS : Rabs y <= M + M / 500) by (pose proof M0 as M0'; apply Rabs_le_inv in M0', ES; apply Rabs_le; lra).
  assert (A2 : hh s <= fsub eT c) by (pose proof (fsub_le y eT c c ltac:(lra) ltac:(lra)); lra).
  pose proof (diff_near y c (hh s) DY DC (hh_double s) YS CS HB ltac:(lra)) as NA.
  pose proof (diff_near eT c (hh s) DE DC (hh_double s) ES CS HB A2) as NB.
  unfold up_param in *. set (a := fsub (fsub y c) (hh s)) in *. set (b := fsub (fsub eT c) (hh s)) in *.
  assert (BB : b <= 8 * M) by (apply Rabs_le_inv in NB, ES, CS; lra).
  assert (RI : IZR (n - Z.of_nat i - 1) = INR N - INR i - 1) by (rewrite !minus_IZR; unfold n, N; rewrite !INR_IZR_INZ; reflexivity).
  assert (I0 : 0 <= INR i) by apply pos_INR.
  pose proof (not_zero (fsub y c) s b i K (rnd_double _) A ltac:(lra)) as NZ. fold a in NZ.
  assert (R1 : 1 <= IZR (n - Z.of_nat i - 1)) by (apply IZR_le; unfold n, N in *; lia).
  assert (PN : Rabs (fmul (IZR (n - Z.of_nat i - 1)) (fdiv a b) * H - (y - bottom y0 E i - H)) <= 3 * T).
  { apply param_near; [lra|unfold n, N in *; lia| | |lra|].
    - apply Rabs_le_inv in NA, C, F. apply Rabs_le. lra.
    - rewrite RI. rewrite (eq_bottom i) in C by lia. apply Rabs_le_inv in NB, C, F, TN. apply Rabs_le. lra.
    - rewrite RI. assert ((INR N - INR i - 1) * H <= INR N * H) by (apply Rmult_le_compat_r; lra).
      apply Rle_trans with (4 * (2 * M * ulp1)); [|unfold m in *; lra]. apply Rmult_le_compat_l; [lra|]. apply Rmult_le_compat_r; lra. }
  pose proof (rnd_pos (IZR (n - Z.of_nat i - 1) * fdiv a b) (grid_mult _ _ (grid_double _ (rnd_double _))) ltac:(apply Rmult_lt_0_compat; lra)) as PP.
  fold (fmul (IZR (n - Z.of_nat i - 1)) (fdiv a b)) in PP. set (p := fmul (IZR (n - Z.of_nat i - 1)) (fdiv a b)) in *.
  pose proof (Zceil_range p _ P2) as ZR. pose proof (Zceil_ub p) as ZU. pose proof (Zceil_lb p) as ZL.
  assert (ZP : (Zceil p <> 0)%Z) by (intros Z0; rewrite Z0 in ZU; lra).
  destruct (Z.eqb_spec (Zceil p) 0); [contradiction|].
  exists (i + Z.to_nat (Zceil p))%nat. replace (Z.of_nat (i + Z.to_nat (Zceil p))) with (Z.of_nat i + Zceil p)%Z by lia.
  split; [unfold n, N in *; lia|]. split; [|reflexivity].
  unfold near. rewrite eq_bottom by (unfold n, N in *; lia). rewrite (eq_bottom i) in PN by lia. rewrite plus_INR.
  replace (INR (Z.to_nat (Zceil p))) with (IZR (Zceil p)) by (rewrite INR_IZR_INZ, Z2Nat.id by lia; reflexivity).
  assert (p * H <= IZR (Zceil p) * H) by (apply Rmult_le_compat_r; lra).
  assert (IZR (Zceil p) * H <= (p + 1) * H) by (apply Rmult_le_compat_r; lra).
  apply Rabs_le_inv in PN. lra.
Qed.
Lemma down_goes i s y f : nth_error E i = Some s -> is_double y -> y0 <= y <= eT -> hh s < fsub (dcentre y0 E i s) y -> (0 < i)%nat ->
  exists j, (j < i)%nat /\ near y j /\ dsearch_row (S f) l y (Z.of_nat i) = dsearch_row f l y (Z.of_nat j).
Proof.
  intros K DY Hy A Hr. rewrite (step_down _ _ _ _ _ _ HR HF ltac:(lia) _ _ _ _ K (proj1 Hy) A). cbv zeta.
  destruct (eq_facts _ _ K) as (Hi & HP & F & HH & C & B0 & B1 & TN & IM & NH & _).
  pose proof (centre_small _ _ K) as CS. pose proof (hh_small _ _ K) as HB. pose proof (eT_small _ _ K) as ES.
  set (c := dcentre y0 E i s) in *. assert (DC : is_double c) by apply centre_double. assert (DE : is_double eT) by now apply edge_double.
  destruct (down_param_range (Z.of_nat i) y c y0 (hh s) ltac:(unfold N in *; lia) (hh_double s) (proj1 Hy) A) as (P1 & P2).
  pose proof MM as MP. pose proof m_T as (Q0 & Q1 & Q2 & Q3). pose proof ulp1_val as U. pose proof M0 as M0'. apply Rabs_le_inv in M0'.
  assert (YS : Rabs y <= M + M / 100) by (apply Rabs_le_inv in ES; apply Rabs_le; lra).
  assert (CS2 : Rabs c <= M + M / 500) by (apply Rabs_le_inv in C, B0, B1; apply Rabs_le; lra).
  assert (A2 : hh s <= fsub c y0) by (pose proof (fsub_le c c y y0 ltac:(lra) ltac:(lra)); lra).
  pose proof (diff_near c y (hh s) DC DY (hh_double s) CS2 YS HB ltac:(lra)) as NA.
  pose proof (diff_near c y0 (hh s) DC D0 (hh_double s) CS2 ltac:(lra) HB A2) as NB.
  unfold down_param in *. set (a := fsub (fsub c y) (hh s)) in *. set (b := fsub (fsub c y0) (hh s)) in *.
  assert (BB : b <= 8 * M) by (apply Rabs_le_inv in NB, CS; lra).
  assert (RI : IZR (Z.of_nat i) = INR i) by (rewrite INR_IZR_INZ; reflexivity).
  assert (I0 : INR i <= INR N) by (apply le_INR; lia).
  pose proof (not_zero (fsub c y) s b i K (rnd_double _) A ltac:(lra)) as NZ. fold a in NZ.
  assert (R1 : 1 <= IZR (Z.of_nat i)) by (apply IZR_le; lia).
  assert (PN : Rabs (fmul (IZR (Z.of_nat i)) (fdiv a b) * H - (bottom y0 E i - y)) <= 3 * T).
  { apply param_near; [lra|lia| | |lra|].
    - apply Rabs_le_inv in NA, C, F. apply Rabs_le. lra.
    - rewrite RI. rewrite (eq_bottom i) in C by lia. apply Rabs_le_inv in NB, C, F. apply Rabs_le. lra.
    - rewrite RI. assert (INR i * H <= INR N * H) by (apply Rmult_le_compat_r; lra).
      apply Rle_trans with (4 * (2 * M * ulp1)); [|unfold m in *; lra]. apply Rmult_le_compat_l; [lra|]. apply Rmult_le_compat_r; lra. }
  pose proof (rnd_pos (IZR (Z.of_nat i) * fdiv a b) (grid_mult _ _ (grid_double _ (rnd_double _))) ltac:(apply Rmult_lt_0_compat; lra)) as PP.
  fold (fmul (IZR (Z.of_nat i)) (fdiv a b)) in PP. set (p := fmul (IZR (Z.of_nat i)) (fdiv a b)) in *.
  pose proof (Zceil_range p _ P2) as ZR. pose proof (Zceil_ub p) as ZU. pose proof (Zceil_lb p) as ZL.
  assert (ZP : (Zceil p <> 0)%Z) by (intros Z0; rewrite Z0 in ZU; lra).
  destruct (Z.eqb_spec (Zceil p) 0); [contradiction|].
  exists (i - Z.to_nat (Zceil p))%nat. replace (Z.of_nat (i - Z.to_nat (Zceil p))) with (Z.of_nat i - Zceil p)%Z by lia.
  split; [lia|]. split; [|reflexivity].
  unfold near. rewrite eq_bottom by lia. rewrite (eq_bottom i) in PN by lia. rewrite minus_INR by lia.
  replace (INR (Z.to_nat (Zceil p))) with (IZR (Zceil p)) by (rewrite INR_IZR_INZ, Z2Nat.id by lia; reflexivity).
  assert (p * H <= IZR (Zceil p) * H) by (apply Rmult_le_compat_r; lra).
  assert (IZR (Zceil p) * H <= (p + 1) * H) by (apply Rmult_le_compat_r; lra).
  apply Rabs_le_inv in PN. lra.
Qed.

(** above row [i] and below the next, by the computed centres *)
Definition between (y : R) (i : nat) : Prop := exists s s', nth_error E i = Some s /\ nth_error E (S i) = Some s' /\
  hh s < fsub y (dcentre y0 E i s) /\ hh s' < fsub (dcentre y0 E (S i) s') y.

Lemma hangs y i : is_double y -> y0 <= y <= eT -> between y i -> forall f r, (r < N)%nat -> dsearch_row f l y (Z.of_nat r) = None.
Proof.
  intros DY Hy (s & s' & K & K' & A & A'). pose proof (above _ _ _ K DY A) as U. pose proof (below _ _ _ K' DY A') as L.
  assert (Hi : (S i < N)%nat) by (apply nth_error_Some; congruence). rewrite (eq_bottom i) in U by lia. rewrite (eq_bottom (S i)), S_INR in L by lia.
  pose proof eq_pos as HP. pose proof m_T as (Q0 & Q1 & Q2 & Q3).
  induction f; intros r Hr; [reflexivity|].
  destruct (nth_error E r) as [t|] eqn:Kr; [|apply nth_error_None in Kr; unfold N in *; lia].
  destruct (eq_facts _ _ Kr) as (_ & _ & _ & HH & _).
  destruct (cases y0 E r t y) as [B|[B|B]].
  - assert (S r < N)%nat.
    { pose proof (above _ _ _ Kr DY B) as V. rewrite (eq_bottom r) in V by lia.
      destruct (le_lt_dec r i); [lia|]. assert (INR (S i) <= INR r) by (apply le_INR; lia). rewrite S_INR in *.
      assert ((INR i + 1) * H <= INR r * H) by (apply Rmult_le_compat_r; lra). lra. }
    destruct (up_goes _ _ _ f Kr DY Hy B H0) as (j & J & _ & ->). apply IHf. lia.
  - assert (0 < r)%nat.
    { pose proof (below _ _ _ Kr DY B) as V. rewrite (eq_bottom r) in V by lia. destruct r; [|lia]. exfalso. cbn [INR] in V.
      pose proof (pos_INR i). assert (0 <= INR i * H) by (apply Rmult_le_pos; lra). lra. }
    destruct (down_goes _ _ _ f Kr DY Hy B H0) as (j & J & _ & ->). apply IHf. lia.
  - exfalso. pose proof (accepted _ _ _ Kr DY B) as V. rewrite (eq_bottom r) in V by lia. apply Rabs_le_inv in B.
    destruct (lt_eq_lt_dec r i) as [[X|X]|X].
    + assert (INR (S r) <= INR i) by (apply le_INR; lia). rewrite S_INR in *. assert ((INR r + 1) * H <= INR i * H) by (apply Rmult_le_compat_r; lra). lra.
    + subst r. assert (t = s) by congruence. subst t. lra.
    + destruct (Nat.eq_dec r (S i)) as [->|].
      * assert (t = s') by congruence. subst t. rewrite (fsub_flip (dcentre y0 E (S i) s') y) in A'. lra.
      * assert (INR (S (S i)) <= INR r) by (apply le_INR; lia). rewrite !S_INR in *. assert ((INR i + 1 + 1) * H <= INR r * H) by (apply Rmult_le_compat_r; lra). lra.
Qed.

Lemma last_up i s y f : nth_error E i = Some s -> y0 <= y <= eT -> hh s < fsub y (dcentre y0 E i s) -> S i = N ->
  dsearch_row (S f) l y (Z.of_nat i) = Some (Ok (Z.of_nat i)).
Proof.
  intros K Hy A Hr. rewrite (step_up _ _ _ _ _ _ HR HF ltac:(lia) _ _ _ _ K (proj2 Hy) A). cbv zeta.
  replace (Z.of_nat (List.length E) - Z.of_nat i - 1)%Z with 0%Z by (unfold N in *; lia). unfold up_param, fmul. rewrite Rmult_0_l, rnd_0.
  replace (Zceil 0) with 0%Z by (symmetry; apply (Zceil_IZR 0)). reflexivity.
Qed.
Lemma first_down s y f : nth_error E 0 = Some s -> y0 <= y <= eT -> hh s < fsub (dcentre y0 E 0 s) y ->
  dsearch_row (S f) l y (Z.of_nat 0) = Some (Ok (Z.of_nat 0)).
Proof.
  intros K Hy A. rewrite (step_down _ _ _ _ _ _ HR HF ltac:(lia) _ _ _ _ K (proj1 Hy) A). cbv zeta.
  unfold down_param, fmul. rewrite Rmult_0_l, rnd_0.
  replace (Zceil 0) with 0%Z by (symmetry; apply (Zceil_IZR 0)). reflexivity.
Qed.
Lemma near_next i y j : (i < j < N)%nat -> near y i -> near y j -> j = S i.
Proof.
  intros J (_ & A) (B & _). rewrite (eq_bottom i) in A by lia. rewrite (eq_bottom j) in B by lia.
  destruct (Nat.eq_dec j (S i)); [assumption|exfalso]. assert (INR (S (S i)) <= INR j) by (apply le_INR; lia). rewrite !S_INR in *.
  pose proof eq_pos. pose proof m_T as (Q0 & Q1 & Q2 & Q3). assert ((INR i + 1 + 1) * H <= INR j * H) by (apply Rmult_le_compat_r; lra). lra.
Qed.
(** from a row next to the point, two turns *)
Lemma ends_near y i f : is_double y -> y0 <= y <= eT -> (forall k, ~ between y k) -> (i < N)%nat -> near y i ->
  exists j, (j < N)%nat /\ dsearch_row (S (S f)) l y (Z.of_nat i) = Some (Ok (Z.of_nat j)).
Proof.
  intros DY Hy NB Hi NI. pose proof eq_pos as HP. pose proof m_T as (Q0 & Q1 & Q2 & Q3).
  destruct (nth_error E i) as [s|] eqn:K; [|apply nth_error_None in K; unfold N in *; lia].
  destruct (cases y0 E i s y) as [A|[A|A]].
  - destruct (Nat.eq_dec (S i) N) as [L|L]; [exists i; split; [lia|now apply (last_up i s)]|].
    destruct (up_goes _ _ _ (S f) K DY Hy A ltac:(lia)) as (j & J & NJ & ->). rewrite (near_next i y j J NI NJ) in *.
    exists (S i). split; [lia|]. destruct (nth_error E (S i)) as [s'|] eqn:K'; [|apply nth_error_None in K'; unfold N in *; lia].
    destruct (cases y0 E (S i) s' y) as [B|[B|B]].
    + exfalso. pose proof (above _ _ _ K' DY B) as V. rewrite (eq_bottom (S i)), S_INR in V by lia. destruct NI as (_ & NI). rewrite (eq_bottom i) in NI by lia. lra.
    + exfalso. apply (NB i). exists s, s'. auto.
    + now apply (step_accept _ _ _ _ _ _ HR HF _ s').
  - destruct i as [|i]; [exists O; split; [lia|now apply (first_down s)]|].
    destruct (down_goes _ _ _ (S f) K DY Hy A ltac:(lia)) as (j & J & NJ & ->).
    assert (S j = S i) by (symmetry; apply (near_next j y (S i)); [lia|assumption|assumption]). assert (j = i) by lia. subst j.
    exists i. split; [lia|]. destruct (nth_error E i) as [s'|] eqn:K'; [|apply nth_error_None in K'; unfold N in *; lia].
    destruct (cases y0 E i s' y) as [B|[B|B]].
    + exfalso. apply (NB i). exists s', s. auto.
    + exfalso. pose proof (below _ _ _ K' DY B) as V. rewrite (eq_bottom i) in V by lia. destruct NI as (NI & _). rewrite (eq_bottom (S i)), S_INR in NI by lia. lra.
    + now apply (step_accept _ _ _ _ _ _ HR HF _ s').
  - exists i. split; [lia|]. now apply (step_accept _ _ _ _ _ _ HR HF _ s).
Qed.
Lemma ends y i f : is_double y -> y0 <= y <= eT -> (forall k, ~ between y k) -> (i < N)%nat ->
  exists j, (j < N)%nat /\ dsearch_row (S (S (S f))) l y (Z.of_nat i) = Some (Ok (Z.of_nat j)).
Proof.
  intros DY Hy NB Hi. destruct (nth_error E i) as [s|] eqn:K; [|apply nth_error_None in K; unfold N in *; lia].
  destruct (cases y0 E i s y) as [A|[A|A]].
  - destruct (Nat.eq_dec (S i) N) as [L|L]; [exists i; split; [lia|now apply (last_up i s)]|].
    destruct (up_goes _ _ _ (S (S f)) K DY Hy A ltac:(lia)) as (j & J & NJ & ->). apply ends_near; auto; lia.
  - destruct i as [|i]; [exists O; split; [lia|now apply (first_down s)]|].
    destruct (down_goes _ _ _ (S (S f)) K DY Hy A ltac:(lia)) as (j & J & NJ & ->). apply ends_near; auto; lia.
  - exists i. split; [lia|]. now apply (step_accept _ _ _ _ _ _ HR HF _ s).
Qed.
End equal.
