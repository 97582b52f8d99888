From Coq Require Import ZArith Reals Lia Lra Psatz Bool.
From Flocq Require Import Core.
From Verif Require Import Base RBase DiskBase NumModel NumSpec NumProofs FpModel FpProofs FpRectProofs2 DiskSpec DiskProofs FpaModel FpZpModel FpZpProofs FpFpaModel FpFpaSpec FpFpaProofs FpFpsProofs FpVdProofs FpInsideModel FpInsideSpec FpDiskSpec.
Open Scope R_scope.

(** the edges computed from the centre *)
Lemma edges_close D n i lo : (0 < n <= 65536)%Z -> / 1000000000 <= D / IZR n -> (0 <= i < n)%Z -> Rabs lo + D <= 1000000000 * (D / IZR n) ->
  let h := fdiv (to_double D) (IZR n) in let c := fadd (fmul (fadd (IZR i) (1 / 2)) h) lo in
  Rabs (fsub c (fdiv h 2) - (lo + IZR i * (D / IZR n))) <= D / IZR n / 2000000 /\ Rabs (fadd c (fdiv h 2) - (lo + (IZR i + 1) * (D / IZR n))) <= D / IZR n / 2000000.
Proof.
  intros N H I B h c. unfold c. rewrite half_at by lia. clear c. destruct (cell_size D n N H) as [S1 S2]. fold h in S1, S2. clearbody h. set (H0 := D / IZR n) in *.
  assert (N1 : 1 <= IZR n) by (apply IZR_le; lia). assert (ED : D = H0 * IZR n) by (unfold H0; field; lra). assert (I0 : 0 <= IZR i) by (apply IZR_le; lia). assert (I1 : IZR i <= 65535) by (apply IZR_le; lia).
  assert (IN : IZR i + 1 <= IZR n) by (rewrite <- plus_IZR; apply IZR_le; lia). clearbody H0. set (x := IZR i) in *. clearbody x. set (nn := IZR n) in *. clearbody nn. clear N I.
  assert (P0 : 0 < h) by (unfold u64 in *; lra). assert (XH : 0 <= x * H0) by (apply Rmult_le_pos; lra).
  assert (A1 : (1 - 3 * u64) * ((x + 1 / 2) * H0) <= (x + 1 / 2) * h) by (replace ((1 - 3 * u64) * ((x + 1 / 2) * H0)) with ((x + 1 / 2) * ((1 - 3 * u64) * H0)) by ring; apply Rmult_le_compat_l; lra).
  assert (A2 : (x + 1 / 2) * h <= (1 + 3 * u64) * ((x + 1 / 2) * H0)) by (replace ((1 + 3 * u64) * ((x + 1 / 2) * H0)) with ((x + 1 / 2) * ((1 + 3 * u64) * H0)) by ring; apply Rmult_le_compat_l; lra).
  set (p := (x + 1 / 2) * h) in *. set (P := (x + 1 / 2) * H0) in *. assert (PP : 0 <= P) by (unfold P; apply Rmult_le_pos; lra). assert (PU : P <= 65536 * H0) by (unfold P; apply Rmult_le_compat_r; lra).
  assert (PD : P <= D). { rewrite ED. unfold P. rewrite (Rmult_comm H0). apply Rmult_le_compat_r; lra. }
  unfold fmul. fold p. destruct (double_rel p) as [B1 B2]; [apply small_d; unfold P, u64 in *; lra|]. set (q := to_double p) in *. clearbody q.
  assert (Q1 : (1 - 5 * u64) * P <= q) by (unfold u64 in *; lra). assert (Q2 : q <= (1 + 5 * u64) * P) by (unfold u64 in *; lra).
  pose proof (double_abs (q + lo)) as E. fold (fadd q lo) in E. set (s := fadd q lo) in *. clearbody s.
  assert (QL : Rabs (q + lo) <= (1 + 10 * u64) * (1000000000 * H0)). { apply Rle_trans with (Rabs q + Rabs lo); [apply Rabs_triang|]. rewrite Rabs_pos_eq by (unfold u64 in *; lra). pose proof (Rabs_pos lo). unfold u64 in *. lra. }
  assert (E' : Rabs (s - (q + lo)) <= H0 / 8000000) by (unfold u64, ty in *; lra). apply Rabs_le_inv in E'. apply Rabs_le_inv in QL.
  assert (SP : - (H0 / 7000000) <= s - (lo + P) <= H0 / 7000000) by (unfold u64 in *; lra).
  destruct (double_rel (h / 2)) as [C1 C2]; [apply small_d; unfold u64 in *; lra|]. fold (fdiv h 2) in C1, C2. set (k := fdiv h 2) in *. clearbody k. assert (K : H0 / 2 - H0 / 1000000000 <= k <= H0 / 2 + H0 / 1000000000) by (unfold u64 in *; lra).
  assert (SL : - (1000000002 * H0) <= s - k /\ s + k <= 1000000002 * H0 /\ s - k <= 1000000002 * H0 /\ - (1000000002 * H0) <= s + k) by (unfold u64 in *; lra).
  pose proof (double_abs (s - k)) as F1. fold (fsub s k) in F1. pose proof (double_abs (s + k)) as F2. fold (fadd s k) in F2. set (e1 := fsub s k) in *. set (e2 := fadd s k) in *. clearbody e1 e2.
  assert (G1 : Rabs (s - k) <= 1000000002 * H0) by (apply Rabs_le; lra). assert (G2 : Rabs (s + k) <= 1000000002 * H0) by (apply Rabs_le; lra).
  assert (F1' : Rabs (e1 - (s - k)) <= H0 / 8000000) by (unfold u64, ty in *; lra). assert (F2' : Rabs (e2 - (s + k)) <= H0 / 8000000) by (unfold u64, ty in *; lra). apply Rabs_le_inv in F1'. apply Rabs_le_inv in F2'.
  unfold P in SP. split; apply Rabs_le; lra.
Qed.


Lemma inside_iff a l i j r phi : fpa_sane a -> moderate a -> not_too_thin a -> new_fpa_d (pa_rMin a) (pa_rMax a) (pa_nRow a) (pa_phiMin a) (pa_phiMax a) (pa_nPads a) = Ok l -> fpa_pad a i j ->
  exists r0 r1 p0 p1, (fpa_isInsidePad_d l r phi (code i j) = true <-> r0 <= r <= r1 /\ p0 <= phi <= p1) /\
   Rabs (r0 - fpa_r a i) <= row_height a / 2000000 /\ Rabs (r1 - fpa_r a (i + 1)) <= row_height a / 2000000 /\
   Rabs (p0 - fpa_phi a j) <= pad_angle a / 2000000 /\ Rabs (p1 - fpa_phi a (j + 1)) <= pad_angle a / 2000000.
Proof.
  intros (S1 & S2 & S3 & S4) (M1 & M2 & M3 & M4 & M5) F E (PI' & PJ). unfold new_fpa_d in E. destruct (Z.ltb_spec (pa_nRow a) 0); [lia|]. injection E as <-. unfold fpa_isInsidePad_d, fpa_getPadCenter_d. cbn [fst snd p_rowHeight p_padAngle p_rMin p_phiMin]. rewrite code_row, code_pad by lia.
  pose proof (edges_close (pa_rMax a - pa_rMin a) (pa_nRow a) i (pa_rMin a) ltac:(lia) ltac:(fold (row_height a); lra) PI') as CI. fold (row_height a) in CI. specialize (CI ltac:(unfold not_too_thin in F; rewrite Rabs_pos_eq by lra; lra)).
  pose proof (edges_close (pa_phiMax a - pa_phiMin a) (pa_nPads a) j (pa_phiMin a) ltac:(lia) ltac:(fold (pad_angle a); lra) PJ) as CJ. fold (pad_angle a) in CJ. specialize (CJ ltac:(unfold two_pi in *; lra)).
  fold (fsub (pa_rMax a) (pa_rMin a)) in CI. fold (fsub (pa_phiMax a) (pa_phiMin a)) in CJ. cbv zeta in CI, CJ. unfold fpa_r, fpa_phi. fold (row_height a) (pad_angle a). rewrite !plus_IZR.
  eexists _, _, _, _. split; [|split; [exact (proj1 CI)|split; [exact (proj2 CI)|split; [exact (proj1 CJ)|exact (proj2 CJ)]]]]. clear.
  rewrite negb_true_iff, !orb_false_iff. unfold Rltb. repeat match goal with |- context [Rlt_dec ?x ?y] => destruct (Rlt_dec x y) end; split; intros X; try (repeat split; lra); try reflexivity; try (destruct X as [[[X1 X2] X3] X4]; discriminate); exfalso; lra.
Qed.
(** doubles next to a given number *)
Lemma rnd_near m e x : (2 ^ 52 < m < 2 ^ 53)%Z -> (-1074 <= e)%Z -> let v := IZR m * bpow radix2 e in Rabs (x - v) < bpow radix2 e / 2 -> to_double x = v.
Proof.
  intros M E v X. apply Rabs_lt_inv in X. assert (V : Valid_exp (FLT_exp (-1074) 53)) by (apply FLT_exp_valid; red; lia). pose proof (bpow_gt_0 radix2 e) as B.
  assert (FM : forall k, (2 ^ 52 <= k < 2 ^ 53)%Z -> generic_format radix2 (FLT_exp (-1074) 53) (IZR k * bpow radix2 e)). { intros k K. apply generic_format_FLT. exists (Float radix2 k e); [reflexivity|cbn; change (Z.pow_pos 2 53) with (2 ^ 53)%Z; lia|exact E]. }
  assert (SU : forall k, (2 ^ 52 <= k < 2 ^ 53)%Z -> succ radix2 (FLT_exp (-1074) 53) (IZR k * bpow radix2 e) = IZR k * bpow radix2 e + bpow radix2 e).
  { intros k K. assert (K0 : 0 < IZR k) by (apply IZR_lt; lia). assert (KP : 0 < IZR k * bpow radix2 e) by (apply Rmult_lt_0_compat; lra). rewrite succ_eq_pos by lra. rewrite ulp_neq_0 by lra. unfold cexp.
    assert (MG : mag radix2 (IZR k * bpow radix2 e) = (53 + e)%Z :> Z). { apply mag_unique. rewrite Rabs_pos_eq by lra. replace (53 + e - 1)%Z with (52 + e)%Z by lia. rewrite !bpow_plus. change (bpow radix2 52) with (IZR (2 ^ 52)). change (bpow radix2 53) with (IZR (2 ^ 53)). split; [apply Rmult_le_compat_r; [lra|apply IZR_le; lia]|apply Rmult_lt_compat_r; [lra|apply IZR_lt; lia]]. }
    rewrite MG. unfold FLT_exp. replace (Z.max (53 + e - 53) (-1074)) with e by lia. reflexivity. }
  apply Rle_antisym; unfold to_double.
  - apply round_N_le_midp; [exact V|apply FM; lia|]. unfold v. rewrite SU by lia. fold v. lra.
  - apply round_N_ge_midp; [exact V|apply FM; lia|]. assert (PR : pred radix2 (FLT_exp (-1074) 53) v = v - bpow radix2 e).
    { replace v with (IZR (m - 1) * bpow radix2 e + bpow radix2 e) at 1 by (unfold v; rewrite minus_IZR; ring). rewrite <- SU by lia. rewrite pred_succ; [unfold v; rewrite minus_IZR; ring|exact V|apply FM; lia]. }
    rewrite PR. lra.
Qed.
