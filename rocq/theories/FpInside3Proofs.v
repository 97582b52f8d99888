From Coq Require Import ZArith Reals Lia Lra Psatz List Bool.
From Flocq Require Import Core.
From Verif Require Import Base RBase DiskBase NumModel NumSpec FpModel FpProofs FpRectProofs2 DiskSpec DiskProofs VdModel FpZpModel FpZpProofs FpFpaModel FpFpaProofs FpFpsModel FpFpsProofs FpVdModel FpVdSpec FpVdProofs FpInside3Model FpInside3Spec.
Import ListNotations.
Open Scope R_scope.

(** the two edges of a pad, and the end of the row *)
Lemma phi_edges rMin a i row j : vd_limits rMin a -> (0 <= i < va_repeat a)%Z -> near_row rMin a i row -> (0 <= j < va_nPads a)%Z -> let w := pad_w rMin a i in
  let p0 := fadd (v_offset row) (fmul (v_padPitch row) (IZR j)) in let p1 := fadd p0 (v_padPitch row) in
  0 < w /\ 0 <= p0 /\ Rabs (p0 - IZR j * w) <= w / 2000000 /\ Rabs (p1 - (IZR j + 1) * w) <= w / 2000000 /\ (IZR j + 1) * w <= two_pi + w / 2000000.
Proof.
  intros L I NR J. cbv zeta. destruct (row_pitch rMin a i row L I NR) as [W0 P]. cbv zeta in *. pose proof (nr_turn _ _ _ _ NR) as T. rewrite <- (nr_pp _ _ _ _ NR) in T. rewrite (nr_off _ _ _ _ NR). destruct L as (L0 & L1 & L2 & L3 & L4 & L5 & L6).
  set (w := pad_w rMin a i) in *. set (pp := v_padPitch row) in *. assert (J0 : 0 <= IZR j) by (apply IZR_le; lia). assert (J1 : IZR j + 1 <= IZR (va_nPads a)) by (rewrite <- plus_IZR; apply IZR_le; lia). assert (N1 : IZR (va_nPads a) <= 65536) by (apply IZR_le; lia).
  set (np := IZR (va_nPads a)) in *. clearbody w pp np. assert (U : 0 < u64 <= / 1000000000000000) by (unfold u64; lra). assert (TY : 0 <= ty <= / 1000000000000000000000000000000) by (unfold ty; lra).
  assert (P' : w - w / 300000000000 <= pp <= w + w / 300000000000) by (unfold delta in P; lra). assert (PP : 0 < pp) by lra. set (x := IZR j) in *. clearbody x.
  assert (A : 0 <= pp * x) by (apply Rmult_le_pos; lra). assert (B : Rabs (pp * x - x * w) <= w / 4500000). { replace (pp * x - x * w) with (x * (pp - w)) by ring. rewrite Rabs_mult, Rabs_pos_eq by lra. apply Rle_trans with (65535 * (w / 300000000000)); [|lra]. apply Rmult_le_compat; [lra|apply Rabs_pos|lra|apply Rabs_le; lra]. }
  apply Rabs_le_inv in B. assert (XW : 0 <= x * w <= 65535 * w) by (split; [apply Rmult_le_pos; lra|apply Rmult_le_compat_r; lra]).
  assert (E0 : fadd 0 (fmul pp x) = to_double (pp * x)) by (unfold fadd, fmul; rewrite Rplus_0_l; apply rnd_id, rnd_double). rewrite E0. pose proof (double_abs (pp * x)) as D. rewrite (Rabs_pos_eq _ A) in D. assert (P0 : 0 <= to_double (pp * x)) by (apply (rnd_lo 0); [apply double_0|exact A]). set (p0 := to_double (pp * x)) in *. clearbody p0.
  assert (UW : 0 <= u64 * (pp * x) <= u64 * (65536 * w)) by (split; [apply Rmult_le_pos; lra|apply Rmult_le_compat_l; lra]). assert (D' : Rabs (p0 - pp * x) <= w / 100000000) by (unfold u64 in *; lra). apply Rabs_le_inv in D'.
  pose proof (double_abs (p0 + pp)) as F. fold (fadd p0 pp) in F. rewrite (Rabs_pos_eq (p0 + pp)) in F by lra. assert (UV : u64 * (p0 + pp) <= u64 * (65540 * w)) by (apply Rmult_le_compat_l; lra). assert (F' : Rabs (fadd p0 pp - (p0 + pp)) <= w / 100000000) by (unfold u64 in *; lra). apply Rabs_le_inv in F'.
  split; [lra|]. split; [exact P0|]. split; [apply Rabs_le; lra|]. split; [apply Rabs_le; lra|].
  pose proof (double_abs (pp * np)) as G. fold (fmul pp np) in G. assert (NB : 0 <= pp * np) by (apply Rmult_le_pos; lra). rewrite (Rabs_pos_eq _ NB) in G. assert (NU : pp * np <= pp * 65536) by (apply Rmult_le_compat_l; lra).
  assert (UG : u64 * (pp * np) <= u64 * (70000 * w)) by (apply Rmult_le_compat_l; lra). assert (G' : Rabs (fmul pp np - pp * np) <= w / 100000000) by (unfold u64 in *; lra). apply Rabs_le_inv in G'.
  assert (pp * (x + 1) <= pp * np) by (apply Rmult_le_compat_l; lra). lra.
Qed.

Lemma vd_inside rMin a l i j r phi : vd_limits rMin a -> vd_made_d rMin a l -> (0 <= i < va_repeat a)%Z -> (0 <= j < va_nPads a)%Z -> / 10000000 <= pad_w rMin a i -> pad_w rMin a i / 100000 <= phi < two_pi ->
  exists b, vd_isInsidePad_d l r phi (code i j) = Ok b /\ (b = true -> near_pad_vd rMin a i j r phi) /\ (well_inside_vd rMin a i j r phi -> b = true).
Proof.
  intros L M I J W PHI. destruct (vmade_rows rMin a l (proj1 (proj2 (proj2 (proj2 L)))) M) as (P1 & P2 & LN & RW). destruct (nthZ (v_rows l) i) as [row|] eqn:N; [|unfold nthZ in N; destruct (Z.ltb_spec i 0); [lia|]; apply nth_error_None in N; lia].
  destruct (made_near rMin a l i row L M ltac:(lia) N) as [_ NR]. destruct (row_edges rMin a i row L I NR) as [R0 R1]. destruct (phi_edges rMin a i row j L I NR J) as (W0 & Q0 & Q1 & Q2 & Q3). destruct L as (L0 & L1 & L2 & L3 & L4 & L5 & L6).
  unfold vd_isInsidePad_d, vd_row_of, vd_getRowNumber. rewrite code_row, code_pad by lia. destruct (Z.ltb_spec i 0); [lia|]. destruct (Z.ltb_spec (Z.of_nat (List.length (v_rows l)) - 1) i); [lia|]. cbn [orb rbind]. unfold sub. rewrite N. cbn [rmap].
  fold (r_lo row) (r_hi row). eexists. split; [reflexivity|]. cbv zeta in *. unfold near_pad_vd, well_inside_vd. cbv zeta. set (p0 := fadd (v_offset row) _) in *. set (p1 := fadd p0 _) in *. set (w := pad_w rMin a i) in *. set (h := va_height a) in *. set (lo := r_lo row) in *. set (hi := r_hi row) in *. clearbody p0 p1 w h lo hi.
  apply Rabs_le_inv in R0, R1, Q1, Q2. assert (U : 0 < u64 <= / 8000000000000000) by (unfold u64; lra). assert (TY : 0 <= ty <= / 1000000000000000000000000000000) by (unfold ty; lra). assert (TP : 6 <= two_pi <= 7) by (unfold two_pi; lra).
  assert (UP : two_pi <= fadd p0 two_pi) by (apply (rnd_lo two_pi); [apply double_two_pi|lra]).
  rewrite !andb_true_iff. split.
  - intros ((A & B) & C). unfold Rleb in A, B. destruct (Rle_dec lo r); [|discriminate]. destruct (Rle_dec r hi); [|discriminate]. split; [lra|].
    destruct (Rlt_dec phi (IZR j * w - w / 1300000)) as [X|X]; [exfalso|].
    + rewrite (ltb_yes phi p0) in C by lra. pose proof (double_abs (phi + two_pi)) as D1. fold (fadd phi two_pi) in D1. pose proof (double_abs (p0 + two_pi)) as D2. fold (fadd p0 two_pi) in D2. rewrite Rabs_pos_eq with (x := phi + two_pi) in D1 by lra. rewrite Rabs_pos_eq with (x := p0 + two_pi) in D2 by lra.
      assert (V1 : u64 * (phi + two_pi) <= / 8000000000000000 * 14) by (apply Rmult_le_compat; lra). assert (V2 : u64 * (p0 + two_pi) <= / 8000000000000000 * 15) by (apply Rmult_le_compat; lra). apply Rabs_le_inv in D1, D2.
      rewrite (leb_no (fadd p0 two_pi)) in C by lra. rewrite leb_no in C by lra. discriminate.
    + destruct (Rlt_dec ((IZR j + 1) * w + w / 1300000) phi) as [Y|Y]; [exfalso|lra]. rewrite (ltb_no phi p0) in C by lra. rewrite (leb_no (fadd p0 two_pi)) in C by lra. rewrite leb_no in C by lra. discriminate.
  - intros ((A & B) & (C & D)). rewrite (ltb_no phi p0) by lra. rewrite (leb_no (fadd p0 two_pi)) by lra. rewrite !leb_yes by lra. auto.
Qed.
(** an angle in the second turn *)
Lemma vd_inside_turn rMin a l i j r phi : vd_limits rMin a -> vd_made_d rMin a l -> (0 <= i < va_repeat a)%Z -> (0 <= j < va_nPads a)%Z -> / 10000000 <= pad_w rMin a i ->
  well_inside_vd rMin a i j r (phi - two_pi) -> vd_isInsidePad_d l r phi (code i j) = Ok true.
Proof.
  intros L M I J W Q. destruct (vmade_rows rMin a l (proj1 (proj2 (proj2 (proj2 L)))) M) as (P1 & P2 & LN & RW). destruct (nthZ (v_rows l) i) as [row|] eqn:N; [|unfold nthZ in N; destruct (Z.ltb_spec i 0); [lia|]; apply nth_error_None in N; lia].
  destruct (made_near rMin a l i row L M ltac:(lia) N) as [_ NR]. destruct (row_edges rMin a i row L I NR) as [R0 R1]. destruct (phi_edges rMin a i row j L I NR J) as (W0 & Q0 & Q1 & Q2 & Q3). destruct L as (L0 & L1 & L2 & L3 & L4 & L5 & L6).
  unfold vd_isInsidePad_d, vd_row_of, vd_getRowNumber. rewrite code_row, code_pad by lia. destruct (Z.ltb_spec i 0); [lia|]. destruct (Z.ltb_spec (Z.of_nat (List.length (v_rows l)) - 1) i); [lia|]. cbn [orb rbind]. unfold sub. rewrite N. cbn [rmap].
  fold (r_lo row) (r_hi row). f_equal. unfold well_inside_vd in Q. cbv zeta in *. assert (J0 : 0 <= IZR j) by (apply IZR_le; lia). set (p0 := fadd (v_offset row) _) in *. set (p1 := fadd p0 _) in *. set (w := pad_w rMin a i) in *. set (h := va_height a) in *. set (lo := r_lo row) in *. set (hi := r_hi row) in *. clearbody p0 p1 w h lo hi.
  apply Rabs_le_inv in R0, R1, Q1, Q2. assert (U : 0 < u64 <= / 8000000000000000) by (unfold u64; lra). assert (TY : 0 <= ty <= / 1000000000000000000000000000000) by (unfold ty; lra). assert (TP : 6 <= two_pi <= 7) by (unfold two_pi; lra). assert (JW : 0 <= IZR j * w) by (apply Rmult_le_pos; lra).
  destruct Q as ((A & B) & (C & D)). rewrite (ltb_no phi p0) by lra. pose proof (double_abs (p0 + two_pi)) as D2. fold (fadd p0 two_pi) in D2. rewrite Rabs_pos_eq with (x := p0 + two_pi) in D2 by lra.
  assert (V2 : u64 * (p0 + two_pi) <= / 8000000000000000 * 15) by (apply Rmult_le_compat; lra). apply Rabs_le_inv in D2. rewrite (leb_yes (fadd p0 two_pi)) by lra.
  pose proof (double_abs (phi - two_pi)) as D1. fold (fsub phi two_pi) in D1. rewrite Rabs_pos_eq with (x := phi - two_pi) in D1 by lra. assert (V1 : u64 * (phi - two_pi) <= / 8000000000000000 * 15) by (apply Rmult_le_compat; lra). apply Rabs_le_inv in D1. rewrite !leb_yes by lra. reflexivity.
Qed.
