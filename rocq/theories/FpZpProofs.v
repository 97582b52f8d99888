From Coq Require Import ZArith Reals Lia Lra Psatz List.
From Flocq Require Import Core Relative.
From Verif Require Import Base RBase VecModel NumModel FpModel ZpModel ZpSpec ZpProofs6 FpZpModel.
Import ListNotations.
Open Scope R_scope.

Definition u32 : R := / 16777216.
Definition u64 : R := / 9007199254740992.
Lemma float_rel x : bpow radix2 (-126) <= x -> (1 - u32) * x <= to_float x <= (1 + u32) * x.
Proof.
  intros H. pose proof (bpow_gt_0 radix2 (-126)) as P. pose proof (relative_error_N_FLT radix2 (-149) 24 ltac:(lia) (fun z => negb (Z.even z)) x) as E.
  rewrite (Rabs_pos_eq x) in E by lra. specialize (E H). fold (to_float x) in E. change (bpow radix2 (- (24) + 1)) with (/ IZR (2 ^ 23)) in E. change (IZR (2 ^ 23)) with 8388608 in E.
  apply Rabs_le_inv in E. unfold u32. split; lra.
Qed.
Lemma double_rel x : bpow radix2 (-1022) <= x -> (1 - u64) * x <= to_double x <= (1 + u64) * x.
Proof.
  intros H. pose proof (bpow_gt_0 radix2 (-1022)) as P. pose proof (relative_error_N_FLT radix2 (-1074) 53 ltac:(lia) (fun z => negb (Z.even z)) x) as E.
  rewrite (Rabs_pos_eq x) in E by lra. specialize (E H). fold (to_double x) in E. change (bpow radix2 (- (53) + 1)) with (/ IZR (2 ^ 52)) in E. change (IZR (2 ^ 52)) with 4503599627370496 in E.
  apply Rabs_le_inv in E. unfold u64. split; lra.
Qed.
Lemma float_0 : to_float 0 = 0. Proof. apply round_0. apply valid_rnd_N. Qed.
Lemma small_f x : / 1000000000000000000 <= x -> bpow radix2 (-126) <= x.
Proof. intros H. apply Rle_trans with (bpow radix2 (-64)); [apply bpow_le; lia|]. change (bpow radix2 (-64)) with (/ IZR (2 ^ 64)). change (IZR (2 ^ 64)) with 18446744073709551616. lra. Qed.
Lemma small_d x : / 1000000000000000000 <= x -> bpow radix2 (-1022) <= x.
Proof. intros H. apply Rle_trans with (bpow radix2 (-126)); [apply bpow_le; lia|now apply small_f]. Qed.

(** ** near the exact value *)
Definition lo : R := (1 - u32) * (1 - u64) * (1 - u64).
Definition hi : R := (1 + u32) * (1 + u64) * (1 + u64).
Lemma lo_pos : 99 / 100 < lo < 1. Proof. unfold lo, u32, u64. lra. Qed.
Lemma hi_pos : 1 < hi < 101 / 100. Proof. unfold hi, u32, u64. lra. Qed.
Lemma max_near l : / 1000000 <= zl_d l + zl_t l -> / 1000000 <= zl_w l ->
  (1 - / 5000000) * maxRadius l <= fmaxRadius l <= (1 + / 5000000) * maxRadius l.
Proof.
  intros HD HW. unfold maxRadius, fmaxRadius. cbv zeta. set (D := zl_d l + zl_t l) in *. set (O := Rabs (zl_off l)). assert (HO : 0 <= O) by apply Rabs_pos. set (W := zl_w l / 2 + O).
  set (d := to_float (fadd (zl_d l) (zl_t l))). set (w := to_float (fadd (fdiv (zl_w l) 2) O)).
  pose proof lo_pos as LP. pose proof hi_pos as HP.
  assert (BD : lo * D <= d <= hi * D).
  { unfold d, fadd. fold D. destruct (double_rel D) as [A1 A2]; [apply small_d; lra|]. set (t := to_double D) in *. destruct (float_rel t) as [B1 B2]; [apply small_f; unfold u64 in *; lra|].
    unfold lo, hi, u32, u64 in *. split; nra. }
  assert (BW : lo * W <= w <= hi * W).
  { unfold w, fadd, fdiv. destruct (double_rel (zl_w l / 2)) as [A1 A2]; [apply small_d; lra|]. set (t := to_double (zl_w l / 2)) in *.
    destruct (double_rel (t + O)) as [B1 B2]; [apply small_d; unfold u64 in *; lra|]. set (t2 := to_double (t + O)) in *. destruct (float_rel t2) as [C1 C2]; [apply small_f; unfold u64 in *; nra|].
    unfold W in *. assert (E1 : (1 - u64) * (zl_w l / 2 + O) <= t + O) by (unfold u64 in *; lra). assert (E2 : t + O <= (1 + u64) * (zl_w l / 2 + O)) by (unfold u64 in *; lra).
    set (Z := zl_w l / 2 + O) in *. assert (HZ : 0 < Z) by (unfold Z; lra). unfold lo, hi. split.
    - apply Rle_trans with ((1 - u32) * t2); [|exact C1]. replace ((1 - u32) * (1 - u64) * (1 - u64) * Z) with ((1 - u32) * ((1 - u64) * ((1 - u64) * Z))) by ring.
      apply Rmult_le_compat_l; [unfold u32; lra|]. apply Rle_trans with ((1 - u64) * (t + O)); [apply Rmult_le_compat_l; [unfold u64; lra|exact E1]|exact B1].
    - apply Rle_trans with ((1 + u32) * t2); [exact C2|]. replace ((1 + u32) * (1 + u64) * (1 + u64) * Z) with ((1 + u32) * ((1 + u64) * ((1 + u64) * Z))) by ring.
      apply Rmult_le_compat_l; [unfold u32; lra|]. apply Rle_trans with ((1 + u64) * (t + O)); [exact B2|apply Rmult_le_compat_l; [unfold u64; lra|exact E2]]. }
  assert (HD' : / 2000000 <= D) by lra. assert (HW' : / 2000000 <= W) by (unfold W; lra). clearbody d w D W O. clear HD HW HO.
  assert (SQ : forall x X, / 2000000 <= X -> lo * X <= x <= hi * X -> (1 - u32) * ((lo * X) * (lo * X)) <= to_float (x * x) <= (1 + u32) * ((hi * X) * (hi * X))).
  { intros x X HX [A B]. assert (P : 0 < lo * X) by nra. assert (L1 : (lo * X) * (lo * X) <= x * x) by (apply Rmult_le_compat; lra). assert (L2 : x * x <= (hi * X) * (hi * X)) by (apply Rmult_le_compat; lra).
    assert (L3 : / 1000000000000000000 <= x * x) by (assert (/ 3000000 <= lo * X) by nra; apply Rle_trans with (/ 3000000 * / 3000000); [lra|]; apply Rle_trans with ((lo * X) * (lo * X)); [apply Rmult_le_compat; lra|exact L1]).
    destruct (float_rel (x * x) (small_f _ L3)) as [C1 C2]. split.
    - apply Rle_trans with ((1 - u32) * (x * x)); [apply Rmult_le_compat_l; [unfold u32; lra|exact L1]|exact C1].
    - apply Rle_trans with ((1 + u32) * (x * x)); [exact C2|apply Rmult_le_compat_l; [unfold u32; lra|exact L2]]. }
  pose proof (SQ d D HD' BD) as [D1 D2]. pose proof (SQ w W HW' BW) as [W1 W2]. clear SQ. set (d2 := to_float (d * d)) in *. set (w2 := to_float (w * w)) in *. clearbody d2 w2.
  set (S := D * D + W * W). assert (HS : / 4000000000000 <= S) by (unfold S; nra).
  assert (S1 : (1 - u32) * (lo * lo) * S <= d2 + w2) by (unfold S; lra). assert (S2 : d2 + w2 <= (1 + u32) * (hi * hi) * S) by (unfold S; lra).
  assert (K1 : 98 / 100 < (1 - u32) * (lo * lo)) by (unfold u32; nra).
  assert (L3 : / 1000000000000000000 <= d2 + w2) by nra. destruct (float_rel (d2 + w2) (small_f _ L3)) as [T1 T2]. set (s := to_float (d2 + w2)) in *. clearbody s.
  assert (S3 : ((1 - u32) * lo) * ((1 - u32) * lo) * S <= s).
  { apply Rle_trans with ((1 - u32) * (d2 + w2)); [|exact T1]. replace (((1 - u32) * lo) * ((1 - u32) * lo) * S) with ((1 - u32) * ((1 - u32) * (lo * lo) * S)) by ring. apply Rmult_le_compat_l; [unfold u32; lra|exact S1]. }
  assert (S4 : s <= ((1 + u32) * hi) * ((1 + u32) * hi) * S).
  { apply Rle_trans with ((1 + u32) * (d2 + w2)); [exact T2|]. replace (((1 + u32) * hi) * ((1 + u32) * hi) * S) with ((1 + u32) * ((1 + u32) * (hi * hi) * S)) by ring. apply Rmult_le_compat_l; [unfold u32; lra|exact S2]. }
  assert (Q1 : ((1 - u32) * lo) * sqrt S <= sqrt s).
  { rewrite <- (sqrt_square ((1 - u32) * lo)) by (unfold u32; nra). rewrite <- sqrt_mult_alt by (unfold u32; nra). now apply sqrt_le_1_alt. }
  assert (Q2 : sqrt s <= ((1 + u32) * hi) * sqrt S).
  { rewrite <- (sqrt_square ((1 + u32) * hi)) by (unfold u32; nra). rewrite <- sqrt_mult_alt by (unfold u32; nra). now apply sqrt_le_1_alt. }
  assert (R0 : / 2000000 <= sqrt S) by (rewrite <- (sqrt_square (/ 2000000)) by lra; apply sqrt_le_1_alt; lra).
  assert (K2 : 97 / 100 < (1 - u32) * lo) by (unfold u32; nra).
  destruct (float_rel (sqrt s)) as [F1 F2]; [apply small_f; nra|]. set (m := to_float (sqrt s)) in *. fold S. clearbody m. set (r := sqrt S) in *. clearbody r. clear - Q1 Q2 R0 F1 F2. split.
  - apply Rle_trans with ((1 - u32) * sqrt s); [|exact F1]. apply Rle_trans with ((1 - u32) * ((1 - u32) * lo * r)); [|apply Rmult_le_compat_l; [unfold u32; lra|exact Q1]].
    assert (E : 1 - / 5000000 <= (1 - u32) * ((1 - u32) * lo)) by (unfold lo, u32, u64; lra). apply Rmult_le_compat_r with (r := r) in E; lra.
  - apply Rle_trans with ((1 + u32) * sqrt s); [exact F2|]. apply Rle_trans with ((1 + u32) * ((1 + u32) * hi * r)); [apply Rmult_le_compat_l; [unfold u32; lra|exact Q2]|].
    assert (E : (1 + u32) * ((1 + u32) * hi) <= 1 + / 5000000) by (unfold hi, u32, u64; lra). apply Rmult_le_compat_r with (r := r) in E; lra.
Qed.

(** ** the three quick checks *)
Definition ty : R := / 10000000000000000000000000000000000000000.
Lemma double_gen x : 0 <= x -> (1 - u64) * x - ty <= to_double x <= (1 + u64) * x + ty.
Proof.
  intros H. destruct (error_N_FLT radix2 (-1074) 53 ltac:(lia) (fun z => negb (Z.even z)) x) as (e & t & E1 & E2 & _ & E). fold (to_double x) in E. rewrite E. clear E.
  change (bpow radix2 (- (53) + 1)) with (/ IZR (2 ^ 52)) in E1. change (IZR (2 ^ 52)) with 4503599627370496 in E1.
  assert (B : bpow radix2 (-1074) <= bpow radix2 (-200)) by (apply bpow_le; lia). change (bpow radix2 (-200)) with (/ IZR (2 ^ 200)) in B.
  change (IZR (2 ^ 200)) with 1606938044258990275541962092341162602522202993782792835301376 in B.
  apply Rabs_le_inv in E1. apply Rabs_le_inv in E2. unfold u64, ty. split; nra.
Qed.
Lemma double_le x y : x <= y -> to_double x <= to_double y.
Proof. intros H. apply round_le; [apply FLT_exp_valid; red; lia|apply valid_rnd_N|exact H]. Qed.
Lemma double_0' : to_double 0 = 0. Proof. apply round_0. apply valid_rnd_N. Qed.
Lemma eps_near : (1 - u64) * (1 / 10000) <= fEPSILON <= (1 + u64) * (1 / 10000).
Proof. apply double_rel. apply small_d. lra. Qed.
Lemma fadd_gen x y : 0 <= x + y -> (1 - u64) * (x + y) - ty <= fadd x y <= (1 + u64) * (x + y) + ty.
Proof. intros H. now apply double_gen. Qed.

Definition rad (p : vec) : R := sqrt (vx p * vx p + vy p * vy p).
Lemma rad_sq p : rad p * rad p = vx p * vx p + vy p * vy p /\ 0 <= rad p.
Proof. split; [apply sqrt_sqrt; nra|apply sqrt_pos]. Qed.
Lemma prad_pos p : 0 <= pRadius p.
Proof. unfold pRadius. rewrite <- double_0'. apply double_le. apply sqrt_pos. Qed.
Lemma prad_hi p X : rad p <= X -> / 1000000 <= X -> pRadius p <= (1 + 4 * u64) * X.
Proof.
  intros H HX. destruct (rad_sq p) as [E P]. set (x2 := vx p * vx p) in *. set (y2 := vy p * vy p) in *. assert (X2 : 0 <= x2) by (unfold x2; nra). assert (Y2 : 0 <= y2) by (unfold y2; nra).
  assert (B : x2 + y2 <= X * X) by (rewrite <- E; apply Rmult_le_compat; lra). unfold pRadius. fold x2 y2.
  destruct (double_gen x2 X2) as [A1 A2]. destruct (double_gen y2 Y2) as [B1 B2]. set (a := to_double x2) in *. set (b := to_double y2) in *.
  assert (a0 : 0 <= a) by (unfold a; rewrite <- double_0'; now apply double_le). assert (b0 : 0 <= b) by (unfold b; rewrite <- double_0'; now apply double_le).
  destruct (fadd_gen a b ltac:(lra)) as [C1 C2]. set (s := fadd a b) in *. clearbody s a b.
  assert (S : s <= ((1 + u64) * (1 + u64)) * ((1 + u64) * (1 + u64)) * (X * X)).
  { assert (Q : / 1000000000000 <= X * X) by nra. set (q := X * X) in *. clearbody q. apply Rle_trans with ((1 + u64) * ((1 + u64) * q + 2 * ty) + ty); [unfold u64, ty in *; lra|unfold u64, ty in *; lra]. }
  assert (T : sqrt s <= (1 + u64) * (1 + u64) * X).
  { rewrite <- (sqrt_square ((1 + u64) * (1 + u64) * X)) by (unfold u64; nra). apply sqrt_le_1_alt. lra. }
  apply Rle_trans with (to_double ((1 + u64) * (1 + u64) * X)); [now apply double_le|].
  destruct (double_rel ((1 + u64) * (1 + u64) * X)) as [_ D]; [apply small_d; unfold u64; lra|]. apply Rle_trans with (1 := D). unfold u64. lra.
Qed.
Lemma prad_lo p X : X <= rad p -> / 1000000 <= X -> (1 - 4 * u64) * X <= pRadius p.
Proof.
  intros H HX. destruct (rad_sq p) as [E P]. set (x2 := vx p * vx p) in *. set (y2 := vy p * vy p) in *. assert (X2 : 0 <= x2) by (unfold x2; nra). assert (Y2 : 0 <= y2) by (unfold y2; nra).
  assert (B : X * X <= x2 + y2) by (rewrite <- E; apply Rmult_le_compat; lra). unfold pRadius. fold x2 y2.
  destruct (double_gen x2 X2) as [A1 A2]. destruct (double_gen y2 Y2) as [B1 B2]. set (a := to_double x2) in *. set (b := to_double y2) in *.
  assert (a0 : 0 <= a) by (unfold a; rewrite <- double_0'; now apply double_le). assert (b0 : 0 <= b) by (unfold b; rewrite <- double_0'; now apply double_le).
  destruct (fadd_gen a b ltac:(lra)) as [C1 C2]. set (s := fadd a b) in *. clearbody s a b.
  assert (S : ((1 - u64) * (1 - u64)) * ((1 - u64) * (1 - u64)) * (X * X) <= s).
  { assert (Q : / 1000000000000 <= X * X) by nra. set (q := X * X) in *. clearbody q. apply Rle_trans with ((1 - u64) * ((1 - u64) * q - 2 * ty) - ty); [unfold u64, ty in *; lra|unfold u64, ty in *; lra]. }
  assert (T : (1 - u64) * (1 - u64) * X <= sqrt s).
  { rewrite <- (sqrt_square ((1 - u64) * (1 - u64) * X)) by (unfold u64; nra). apply sqrt_le_1_alt. lra. }
  apply Rle_trans with (to_double ((1 - u64) * (1 - u64) * X)); [|now apply double_le].
  destruct (double_rel ((1 - u64) * (1 - u64) * X)) as [D _]; [apply small_d; unfold u64; lra|]. apply Rle_trans with (2 := D). unfold u64. lra.
Qed.

(** not too far *)
Lemma far_no m R p : / 1000000 <= R <= 499 -> (1 - / 5000000) * R <= m -> rad p <= R -> ~ fadd m fEPSILON < pRadius p.
Proof.
  intros HR Hm Hp. apply Rle_not_lt. pose proof eps_near as [E1 E2]. pose proof (prad_hi p R Hp ltac:(lra)) as P.
  destruct (fadd_gen m fEPSILON ltac:(unfold u64 in *; lra)) as [F _]. unfold u64, ty in *. lra.
Qed.
Lemma far_yes m R p : 0 <= m -> / 1000000 <= R <= 499 -> m <= (1 + / 5000000) * R -> R + 3 / 10000 <= rad p -> fadd m fEPSILON < pRadius p.
Proof.
  intros H0 HR Hm Hp. pose proof eps_near as [E1 E2]. pose proof (prad_lo p _ Hp ltac:(lra)) as P.
  destruct (fadd_gen m fEPSILON ltac:(unfold u64 in *; lra)) as [_ F]. unfold u64, ty in *. lra.
Qed.
(** not too near *)
Lemma near_no d p : 0 < d <= 10000000000 -> d <= rad p -> ~ pRadius p < fsub d fEPSILON.
Proof.
  intros Hd Hp. apply Rle_not_lt. pose proof eps_near as [E1 E2]. unfold fsub. destruct (Rle_dec (d - fEPSILON) 0) as [L|L].
  - apply Rle_trans with 0; [|apply prad_pos]. rewrite <- double_0'. now apply double_le.
  - destruct (double_gen (d - fEPSILON)) as [_ F]; [lra|]. pose proof (prad_lo p _ Hp) as P. unfold u64, ty in *. lra.
Qed.
Lemma near_yes d p : d <= 10000000000 -> rad p <= d - 2 / 10000 -> pRadius p < fsub d fEPSILON.
Proof.
  intros Hd Hp. pose proof eps_near as [E1 E2]. unfold fsub. destruct (rad_sq p) as [_ P0]. destruct (double_gen (d - fEPSILON)) as [F _]; [unfold u64 in *; lra|].
  pose proof (prad_hi p (d - 2 / 10000 + / 1000000) ltac:(lra) ltac:(lra)) as P. unfold u64, ty in *. lra.
Qed.
(** not beyond the ends *)
Lemma end_both len gap z : 0 <= len -> 0 <= gap -> len + gap / 2 <= 10000000000 ->
  (Rabs z <= len + gap / 2 -> ~ fadd (fadd len (fdiv gap 2)) fEPSILON < Rabs z) /\ (len + gap / 2 + 2 / 10000 <= Rabs z -> fadd (fadd len (fdiv gap 2)) fEPSILON < Rabs z).
Proof.
  intros Hl Hg HL. pose proof eps_near as [E1 E2]. destruct (double_gen (gap / 2)) as [A1 A2]; [lra|]. fold (fdiv gap 2) in A1, A2. set (g := fdiv gap 2) in *.
  assert (g0 : 0 <= g) by (unfold g, fdiv; rewrite <- double_0'; apply double_le; lra). destruct (fadd_gen len g ltac:(lra)) as [B1 B2].
  assert (s0 : 0 <= fadd len g) by (unfold fadd; rewrite <- double_0'; apply double_le; lra). set (s := fadd len g) in *. destruct (fadd_gen s fEPSILON ltac:(unfold u64 in *; lra)) as [C1 C2].
  clearbody s g. split; intros Hz; [apply Rle_not_lt|]; unfold u64, ty in *; lra.
Qed.

(** ** what is promised *)
Lemma max_of a q : part_ok q -> / 1000000 <= q_d q + q_t q -> / 1000000 <= maxRadius (layer_of a q).
Proof.
  intros (Q1 & Q2 & Q3 & Q4) H. unfold maxRadius, layer_of. cbv zeta. cbn [zl_d zl_t zl_w zl_off]. rewrite <- (sqrt_square (/ 1000000)) by lra. apply sqrt_le_1_alt. set (w := q_w q / 2 + Rabs (q_off q)). nra.
Qed.
Lemma in_rad gap q az p : in_volume gap q az p -> 0 < q_d q -> q_d q <= rad p.
Proof.
  intros (V & _) H. unfold rad. rewrite <- (sqrt_square (q_d q)) by lra. apply sqrt_le_1_alt.
  replace (vx p * vx p + vy p * vy p) with (along az p * along az p + across az p * across az p); [nra|].
  unfold along, across. pose proof (sin2_cos2 az) as T. unfold Rsqr in T. transitivity ((vx p * vx p + vy p * vy p) * (sin az * sin az + cos az * cos az)); [ring|rewrite T; ring].
Qed.
Lemma zgap type rIn rOut half gap rad h : z_gap (zp_made type rIn rOut half gap rad h) = gap.
Proof.
  unfold zp_made. set (z := new_zplanar _ _ _ _ _ _). assert (E : z_gap z = gap) by reflexivity. clearbody z. revert z E. induction h as [|a h IH]; intros z E; [exact E|]. apply IH. exact E.
Qed.
