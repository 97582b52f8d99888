From Coq Require Import ZArith Reals Lia Lra Psatz List Bool.
From Flocq Require Import Core.
From Verif Require Import Base RBase DiskBase NumModel NumSpec FpModel FpProofs FpRectProofs2 DiskSpec DiskProofs VdModel FpZpModel FpZpProofs FpFpaModel FpFpaProofs FpFpsModel FpFpsSpec FpFpsProofs FpVdModel FpVdSpec.
Import ListNotations.
Open Scope R_scope.

Lemma leb_no x y : y < x -> Rleb x y = false. Proof. intros. unfold Rleb. destruct (Rle_dec x y); [lra|reflexivity]. Qed.
Lemma zero_div x : fdiv 0 x = 0. Proof. unfold fdiv, Rdiv. now rewrite Rmult_0_l, double_0'. Qed.

(** ** the rows *)
Definition rowlike (np : Z) (pitch h : R) (n : Z) (rc : R) (row : vrow) : Prop :=
  v_rowNumber row = n /\ v_nPads row = np /\ v_padPitch row = fdiv pitch rc /\ v_offset row = 0 /\ v_rCentre row = rc /\ v_rowHeight row = h /\ fmul (fdiv pitch rc) (IZR np) <= two_pi.
Fixpoint is_rows (np : Z) (pitch h : R) (n : Z) (rc : R) (rows : list vrow) : Prop :=
  match rows with [] => True | row :: t => rowlike np pitch h n rc row /\ is_rows np pitch h (n + 1) (fadd rc h) t end.
Lemma new_row_like n np rc p h pw ph row : new_vrow_d n np rc p h pw ph 0 = Ok row -> rowlike np p h n rc row.
Proof.
  unfold new_vrow_d. rewrite zero_div. rewrite (ltb_no 0 (- two_pi)) by (unfold two_pi; lra). rewrite (leb_no two_pi 0) by (unfold two_pi; lra). rewrite zero_div.
  destruct (Reqb rc 0); [discriminate|]. unfold Rltb. destruct (Rlt_dec _ _) as [|T]; [discriminate|]. intros E. injection E as <-. repeat split. lra.
Qed.
Lemma push_rows : forall k np rc p h pw ph l l', vd_push_d k np rc p h pw ph 0 l = SOk l' tt ->
  exists rows, v_rows l' = v_rows l ++ rows /\ List.length rows = k /\ is_rows np p h (Z.of_nat (List.length (v_rows l))) rc rows.
Proof.
  induction k as [|k IH]; intros np rc p h pw ph l l' E; cbn [vd_push_d] in E; [injection E as <-; exists []; rewrite app_nil_r; now repeat split|].
  destruct (new_vrow_d _ _ _ _ _ _ _ _) as [row| |] eqn:N; try discriminate. apply new_row_like in N. destruct (IH _ _ _ _ _ _ _ _ E) as (rows & A & B & C). cbn [v_rows] in *.
  exists (row :: rows). rewrite A, <- app_assoc. split; [reflexivity|]. split; [cbn; now rewrite B|]. split; [exact N|]. rewrite app_length in C. cbn [List.length] in C. replace (Z.of_nat (List.length (v_rows l)) + 1)%Z with (Z.of_nat (List.length (v_rows l) + 1)) by lia. exact C.
Qed.
Lemma vmade_rows rMin a l : va_offset a = 0 -> vd_made_d rMin a l -> (0 < va_nPads a)%Z /\ (0 < va_repeat a)%Z /\ List.length (v_rows l) = Z.to_nat (va_repeat a) /\
  is_rows (va_nPads a) (va_pitch a) (va_height a) 0 (fadd rMin (fmul (va_height a) (1 / 2))) (v_rows l).
Proof.
  intros O M. unfold vd_made_d, vd_addRow_d in M. rewrite O in M. destruct (Z.leb_spec (va_nPads a) 0); [discriminate|]. do 4 (destruct (_ : bool) in M; [discriminate|]). destruct (Z.leb_spec (va_repeat a) 0); [discriminate|].
  cbn [new_vd v_e1 v_nPad v_rows v_e0 v_e2 v_e3 v_padIndices] in M. match type of M with match ?X with _ => _ end = _ => destruct X as [l1 []| |] eqn:P end; try discriminate. apply push_rows in P. cbn [v_rows] in P. destruct P as (rows & A & B & C). cbn in A.
  destruct (rev (v_rows l1)) as [|row t] eqn:RV; [discriminate|]. injection M as <-. cbn [v_rows]. rewrite A. auto.
Qed.

(** ** radii, summed up row by row *)
Lemma rel_round' x x' k : / 100000000000000000 <= x -> 0 <= k <= 10000 -> (1 - k * u64) * x <= x' <= (1 + k * u64) * x -> (1 - (k + 2) * u64) * x <= to_double x' <= (1 + (k + 2) * u64) * x.
Proof.
  intros X K A. assert (U : 0 < u64 <= / 1000000000000000) by (unfold u64; lra). assert (KU : 0 <= k * u64 <= / 10000000000) by nra. assert (X2 : / 1000000000000000000 <= x') by nra.
  destruct (double_rel x' (small_d x' X2)) as [C D]. assert (KX : 0 <= k * u64 * x <= / 10000000000 * x) by nra. split; [|nra].
  apply Rle_trans with ((1 - u64) * ((1 - k * u64) * x)); nra.
Qed.
Lemma rc_first rMin h : 0 <= rMin -> / 1000 <= h -> (1 - 5 * u64) * (rMin + 1 / 2 * h) <= fadd rMin (fmul h (1 / 2)) <= (1 + 5 * u64) * (rMin + 1 / 2 * h).
Proof.
  intros R H. assert (U : 0 < u64 <= / 1000000000000000) by (unfold u64; lra). destruct (double_rel (h * (1 / 2)) (small_d (h * (1 / 2)) ltac:(lra))) as [A B]. fold (fmul h (1 / 2)) in A, B.
  assert (X : (1 - (3 + 2) * u64) * (rMin + 1 / 2 * h) <= fadd rMin (fmul h (1 / 2)) <= (1 + (3 + 2) * u64) * (rMin + 1 / 2 * h)); [|lra]. apply (rel_round' _ _ 3); [lra|lra|]. assert (0 <= u64 * rMin) by nra. split; nra.
Qed.
(** row [m] of rows that start with radius [rc] near [e] *)
Lemma rows_near np p h : / 1000 <= h -> forall rows n rc e k m row, is_rows np p h n rc rows -> nth_error rows m = Some row -> / 2000 <= e -> 5 <= k -> k + 2 * INR m <= 9000 ->
  (1 - k * u64) * e <= rc <= (1 + k * u64) * e -> rowlike np p h (n + Z.of_nat m) (v_rCentre row) row /\
  (1 - (k + 2 * INR m) * u64) * (e + INR m * h) <= v_rCentre row <= (1 + (k + 2 * INR m) * u64) * (e + INR m * h).
Proof.
  intros H. induction rows as [|x t IH]; intros n rc e k m row RW N E K KM B; [destruct m; discriminate|]. destruct RW as [R1 R2]. destruct m as [|m].
  - injection N as <-. destruct R1 as (Q1 & Q2 & Q3 & Q4 & Q5 & Q6 & Q8). split; [unfold rowlike; rewrite Q1, Q2, Q3, Q4, Q5, Q6; repeat split; lia || exact Q8|]. rewrite Q5. simpl. replace (k + 2 * 0) with k by ring. replace (e + 0 * h) with e by ring. exact B.
  - cbn [nth_error] in N. rewrite S_INR in *. pose proof (pos_INR m) as PM. assert (U : 0 < u64 <= / 1000000000000000) by (unfold u64; lra).
    assert (KU : 0 <= k * u64 * h) by (apply Rmult_le_pos; nra).
    assert (B2 : (1 - (k + 2) * u64) * (e + h) <= fadd rc h <= (1 + (k + 2) * u64) * (e + h)) by (apply rel_round'; [lra|lra|]; split; lra).
    destruct (IH _ _ (e + h) (k + 2) m row R2 N ltac:(lra) ltac:(lra) ltac:(lra) B2) as [C D]. split; [now replace (n + Z.of_nat (S m))%Z with (n + 1 + Z.of_nat m)%Z by lia|].
    replace (k + 2 * (INR m + 1)) with (k + 2 + 2 * INR m) by ring. replace (e + (INR m + 1) * h) with (e + h + INR m * h) by ring. exact D.
Qed.
Lemma rc_grows np p h : 0 < h -> forall rows n rc m row, is_rows np p h n rc rows -> is_double rc -> nth_error rows m = Some row -> rc <= v_rCentre row /\ is_double (v_rCentre row).
Proof.
  intros H. induction rows as [|x t IH]; intros n rc m row RW D N; [destruct m; discriminate|]. destruct RW as [R1 R2]. destruct m as [|m].
  - injection N as <-. destruct R1 as (_ & _ & _ & _ & Q5 & _). rewrite Q5. split; [lra|exact D].
  - destruct (IH _ _ m row R2 (rnd_double _) N) as [A B]. split; [|exact B]. apply Rle_trans with (2 := A). apply (rnd_lo rc); [exact D|lra].
Qed.
Lemma rc_mono np p h : 0 < h -> forall rows n rc m m' row row', is_rows np p h n rc rows -> is_double rc -> nth_error rows m = Some row -> nth_error rows m' = Some row' -> (m <= m')%nat -> v_rCentre row <= v_rCentre row'.
Proof.
  intros H. induction rows as [|x t IH]; intros n rc m m' row row' RW D N N' L; [destruct m; discriminate|]. destruct m as [|m].
  - injection N as <-. destruct (rc_grows np p h H _ _ _ _ _ RW D N') as [A _]. destruct RW as [(_ & _ & _ & _ & Q5 & _) _]. now rewrite Q5.
  - destruct m' as [|m']; [lia|]. destruct RW as [_ R2]. apply (IH _ _ m m' row row' R2 (rnd_double _) N N'). lia.
Qed.

(** ** one row *)
Definition delta : R := / 1000000000000.
Record near_row (rMin : R) (a : vd_args) (i : Z) (row : vrow) : Prop := {
  nr_num : v_rowNumber row = i; nr_np : v_nPads row = va_nPads a; nr_pp : v_padPitch row = fdiv (va_pitch a) (v_rCentre row); nr_off : v_offset row = 0; nr_h : v_rowHeight row = va_height a; nr_turn : fmul (fdiv (va_pitch a) (v_rCentre row)) (IZR (va_nPads a)) <= two_pi;
  nr_rc : (1 - delta) * mid_r rMin a i <= v_rCentre row <= (1 + delta) * mid_r rMin a i }.
Lemma made_near rMin a l i row : vd_limits rMin a -> vd_made_d rMin a l -> (0 <= i)%Z -> nthZ (v_rows l) i = Some row -> (i < va_repeat a)%Z /\ near_row rMin a i row.
Proof.
  intros (L0 & L1 & L2 & L3 & L4 & L5 & L6) M I N. destruct (vmade_rows rMin a l L3 M) as (P1 & P2 & LN & RW). unfold nthZ in N. destruct (Z.ltb_spec i 0); [lia|].
  assert (B : (Z.to_nat i < List.length (v_rows l))%nat) by (apply nth_error_Some; congruence). rewrite LN in B. assert (IR : (i < va_repeat a)%Z) by lia. split; [exact IR|].
  assert (EI : INR (Z.to_nat i) = IZR i) by (rewrite INR_IZR_INZ; f_equal; lia). assert (I0 : 0 <= IZR i <= 4095) by (split; apply IZR_le; lia).
  destruct (rows_near _ _ _ (proj1 L1) _ _ _ (rMin + 1 / 2 * va_height a) 5 _ _ RW N ltac:(lra) ltac:(lra) ltac:(rewrite EI; lra) (rc_first rMin _ L0 (proj1 L1))) as [(Q1 & Q2 & Q3 & Q4 & Q5 & Q6 & Q8) Q7]. rewrite EI in Q7.
  split; auto; [rewrite Q1; lia|]. unfold mid_r. replace (rMin + (IZR i + 1 / 2) * va_height a) with (rMin + 1 / 2 * va_height a + IZR i * va_height a) by ring.
  set (e := rMin + 1 / 2 * va_height a + IZR i * va_height a) in *. assert (E0 : 0 <= e) by (unfold e; nra). assert (KU : 0 <= (5 + 2 * IZR i) * u64 <= delta) by (unfold u64, delta; lra).
  assert (0 <= (5 + 2 * IZR i) * u64 * e <= delta * e) by (split; [apply Rmult_le_pos; lra|apply Rmult_le_compat_r; lra]). lra.
Qed.
Lemma row_edges rMin a i row : vd_limits rMin a -> (0 <= i < va_repeat a)%Z -> near_row rMin a i row ->
  Rabs (r_lo row - (rMin + IZR i * va_height a)) <= va_height a / 2000000 /\ Rabs (r_hi row - (rMin + (IZR i + 1) * va_height a)) <= va_height a / 2000000.
Proof.
  intros (L0 & L1 & L2 & L3 & L4 & L5 & L6) I NR. pose proof (nr_rc _ _ _ _ NR) as C. unfold mid_r in C. unfold r_lo, r_hi. rewrite (nr_h _ _ _ _ NR). set (h := va_height a) in *. set (rc := v_rCentre row) in *.
  assert (I0 : 0 <= IZR i) by (apply IZR_le; lia). assert (I1 : IZR i + 1 <= IZR (va_repeat a)) by (rewrite <- plus_IZR; apply IZR_le; lia). assert (U : 0 < u64 <= / 1000000000000000) by (unfold u64; lra).
  assert (ET : rMin + (IZR i + 1) * h <= 100000 * h). { apply Rle_trans with (2 := L6). apply Rplus_le_compat_l, Rmult_le_compat_r; lra. }
  replace (rMin + IZR i * h) with (rMin + (IZR i + 1 / 2) * h - h / 2) by lra. replace (rMin + (IZR i + 1) * h) with (rMin + (IZR i + 1 / 2) * h + h / 2) in * by lra. assert (E2 : h / 2 <= rMin + (IZR i + 1 / 2) * h) by nra.
  set (e := rMin + (IZR i + 1 / 2) * h) in *. clearbody e rc. unfold delta in C.
  destruct (double_rel (h * (1 / 2)) (small_d (h * (1 / 2)) ltac:(lra))) as [A B]. fold (fmul h (1 / 2)) in A, B. set (hh := fmul h (1 / 2)) in *. assert (HH : Rabs (hh - h / 2) <= h / 1000000000000) by (apply Rabs_le; nra). clearbody hh. apply Rabs_le_inv in HH.
  assert (RC : Rabs (rc - e) <= h / 10000000) by (apply Rabs_le; lra). apply Rabs_le_inv in RC. assert (TY : 0 <= ty <= h / 1000000000000) by (unfold ty; lra).
  split.
  - pose proof (double_abs (rc - hh)) as D. fold (fsub rc hh) in D. assert (X : Rabs (rc - hh) <= 200000 * h) by (apply Rabs_le; lra). assert (Y : u64 * Rabs (rc - hh) <= h / 1000000000) by (apply Rle_trans with (u64 * (200000 * h)); [apply Rmult_le_compat_l; lra|nra]). apply Rabs_le. apply Rabs_le_inv in D. lra.
  - pose proof (double_abs (rc + hh)) as D. fold (fadd rc hh) in D. assert (X : Rabs (rc + hh) <= 200000 * h) by (apply Rabs_le; lra). assert (Y : u64 * Rabs (rc + hh) <= h / 1000000000) by (apply Rle_trans with (u64 * (200000 * h)); [apply Rmult_le_compat_l; lra|nra]). apply Rabs_le. apply Rabs_le_inv in D. lra.
Qed.

(** ** the angle *)
Lemma row_pitch rMin a i row : vd_limits rMin a -> (0 <= i < va_repeat a)%Z -> near_row rMin a i row -> let w := pad_w rMin a i in
  / 1000000000000000 <= w /\ (1 - 3 * delta) * w <= v_padPitch row <= (1 + 3 * delta) * w.
Proof.
  intros (L0 & L1 & L2 & L3 & L4 & L5 & L6) I NR. cbn zeta. pose proof (nr_rc _ _ _ _ NR) as C. rewrite (nr_pp _ _ _ _ NR). unfold pad_w. set (rc := v_rCentre row) in *.
  assert (I0 : 0 <= IZR i) by (apply IZR_le; lia). assert (I1 : IZR i + 1 <= IZR (va_repeat a)) by (rewrite <- plus_IZR; apply IZR_le; lia). assert (U : 0 < u64 <= / 1000000000000000) by (unfold u64; lra).
  assert (E : / 2000 <= mid_r rMin a i <= 100000000000). { unfold mid_r. split; [nra|]. apply Rle_trans with (100000 * va_height a); [|lra]. apply Rle_trans with (2 := L6). apply Rplus_le_compat_l, Rmult_le_compat_r; lra. }
  set (e := mid_r rMin a i) in *. set (p := va_pitch a) in *. clearbody e rc p. assert (D0 : 0 < delta <= / 1000000) by (unfold delta; lra). assert (RC : / 4000 <= rc) by nra.
  assert (EW : p / e * e = p) by (field; lra). set (w := p / e) in *. assert (W0 : / 1000000000000000 <= w). { apply Rmult_le_reg_r with e; [lra|]. rewrite EW. nra. } split; [exact W0|].
  assert (EQ : p / rc * rc = p) by (field; lra). set (q := p / rc) in *. clearbody w q.
  assert (Q1 : (1 - 2 * delta) * w <= q). { apply Rmult_le_reg_r with rc; [lra|]. rewrite EQ, <- EW. apply Rle_trans with ((1 - 2 * delta) * w * ((1 + delta) * e)); [apply Rmult_le_compat_l; [nra|lra]|]. replace ((1 - 2 * delta) * w * ((1 + delta) * e)) with (((1 - 2 * delta) * (1 + delta)) * (w * e)) by ring. assert ((1 - 2 * delta) * (1 + delta) <= 1) by nra. assert (0 <= w * e) by nra. nra. }
  assert (Q2 : q <= (1 + 2 * delta) * w). { apply Rmult_le_reg_r with rc; [lra|]. rewrite EQ, <- EW. apply Rle_trans with ((1 + 2 * delta) * w * ((1 - delta) * e)); [|apply Rmult_le_compat_l; [nra|lra]]. replace ((1 + 2 * delta) * w * ((1 - delta) * e)) with (((1 + 2 * delta) * (1 - delta)) * (w * e)) by ring. assert (1 <= (1 + 2 * delta) * (1 - delta)) by nra. assert (0 <= w * e) by nra. nra. }
  destruct (double_rel q (small_d q ltac:(nra))) as [A B]. assert (ED : fdiv p rc = to_double (p / rc)) by reflexivity. assert (EQ2 : p / rc = q) by (apply Rmult_eq_reg_r with rc; [|lra]; rewrite EQ; field; lra). rewrite ED, EQ2.
  assert (UD : u64 <= delta / 1000) by (unfold u64, delta; lra). assert (0 <= q) by nra. assert (u64 * q <= delta / 1000 * q) by (apply Rmult_le_compat_r; lra). assert (delta * w >= 0) by nra. split; nra.
Qed.
Lemma row_pad rMin a i row j r phi : vd_limits rMin a -> (0 <= i < va_repeat a)%Z -> near_row rMin a i row -> (0 <= j < va_nPads a)%Z -> is_double phi -> well_inside_vd rMin a i j r phi ->
  IZR j <= fdiv (fsub phi 0) (v_padPitch row) < IZR j + 1 /\ phi < row_phi_max_d row /\ 0 <= phi /\ 0 < v_padPitch row.
Proof.
  intros L I NR J DP (_ & W). destruct (row_pitch rMin a i row L I NR) as [W0 P]. destruct L as (L0 & L1 & L2 & L3 & L4 & L5 & L6). set (w := pad_w rMin a i) in *. set (pp := v_padPitch row) in *.
  assert (J0 : 0 <= IZR j) by (apply IZR_le; lia). assert (J1 : IZR j + 1 <= IZR (va_nPads a)) by (rewrite <- plus_IZR; apply IZR_le; lia). assert (N1 : IZR (va_nPads a) <= 65536) by (apply IZR_le; lia). assert (D0 : 0 < delta <= / 1000000) by (unfold delta; lra).
  assert (ES : fsub phi 0 = phi) by (unfold fsub; rewrite Rminus_0_r; now apply rnd_id). rewrite ES. assert (EF : row_phi_max_d row = fmul (IZR (va_nPads a)) pp). { unfold row_phi_max_d. rewrite (nr_off _ _ _ _ NR), (nr_np _ _ _ _ NR). fold pp. unfold fadd. rewrite Rplus_0_l. apply rnd_id, rnd_double. } rewrite EF.
  set (np := IZR (va_nPads a)) in *. clearbody w np pp. assert (PP : 0 < pp) by nra. assert (F0 : 0 <= phi) by nra. assert (U : 0 < u64 <= / 1000000000000000) by (unfold u64; lra).
  assert (EQ : phi / pp * pp = phi) by (field; lra). set (q := phi / pp) in *.
  assert (Q1 : IZR j + / 2000000 <= q). { apply Rmult_le_reg_r with pp; [lra|]. rewrite EQ. apply Rle_trans with ((IZR j + / 2000000) * ((1 + 3 * delta) * w)); [apply Rmult_le_compat_l; lra|]. apply Rle_trans with (2 := proj1 W). replace (IZR j * w + w / 1000000) with ((IZR j + / 1000000) * w) by lra. replace ((IZR j + / 2000000) * ((1 + 3 * delta) * w)) with (((IZR j + / 2000000) * (1 + 3 * delta)) * w) by ring. apply Rmult_le_compat_r; [lra|]. unfold delta. lra. }
  assert (Q2 : q <= IZR j + 1 - / 2000000). { apply Rmult_le_reg_r with pp; [lra|]. rewrite EQ. apply Rle_trans with ((IZR j + 1 - / 2000000) * ((1 - 3 * delta) * w)); [|apply Rmult_le_compat_l; lra]. apply Rle_trans with (1 := proj2 W). replace ((IZR j + 1) * w - w / 1000000) with ((IZR j + 1 - / 1000000) * w) by lra. replace ((IZR j + 1 - / 2000000) * ((1 - 3 * delta) * w)) with (((IZR j + 1 - / 2000000) * (1 - 3 * delta)) * w) by ring. apply Rmult_le_compat_r; [lra|]. unfold delta. lra. }
  split; [|split; [|split; [exact F0|exact PP]]].
  - destruct (double_rel q (small_d q ltac:(lra))) as [A B]. change (fdiv phi pp) with (to_double q). assert (u64 * q <= / 10000000) by nra. lra.
  - destruct (double_rel (np * pp)) as [A _]; [apply small_d; nra|]. fold (fmul np pp) in A. apply Rlt_le_trans with (2 := A). rewrite <- EQ. apply Rlt_le_trans with ((1 - u64) * np * pp); [|lra]. apply Rmult_lt_compat_r; [lra|]. assert (u64 * np <= / 10000000) by nra. lra.
Qed.
(** rows further in: their pads are wider *)
Lemma row_before rMin a i i' row row' j r phi : vd_limits rMin a -> (0 <= i < va_repeat a)%Z -> near_row rMin a i row -> (0 <= i')%Z -> near_row rMin a i' row' -> v_rCentre row' <= v_rCentre row ->
  (0 <= j < va_nPads a)%Z -> is_double phi -> is_double r -> well_inside_vd rMin a i j r phi -> (i' < i)%Z -> forall cosd, (exists p, vrow_getNearestPad_d cosd row' r phi = Ok p) /\ exists d, vrow_distance_d cosd row' r phi = Some d /\ 0 < d.
Proof.
  intros L I NR I' NR' M J DP DR W LT cosd. destruct (row_pad rMin a i row j r phi L I NR J DP W) as (Q & F & F0 & PP). destruct (row_edges rMin a i' row' L ltac:(lia) NR') as [_ E2]. apply Rabs_le_inv in E2. destruct W as [W _].
  pose proof L as (L0 & L1 & L2 & L3 & L4 & L5 & L6). assert (II : IZR i' + 1 <= IZR i) by (rewrite <- plus_IZR; apply IZR_le; lia). assert (HI : r_hi row' < r) by nra.
  pose proof (row_pitch rMin a i' row' L ltac:(lia) NR') as [W0 P']. cbn zeta in *. assert (D0 : 0 < delta <= / 1000000) by (unfold delta; lra). assert (RC : 0 < v_rCentre row'). { pose proof (nr_rc _ _ _ _ NR') as C. assert (0 < mid_r rMin a i') by (unfold mid_r; assert (0 <= IZR i') by (apply IZR_le; lia); nra). nra. }
  assert (PL : v_padPitch row <= v_padPitch row'). { rewrite (nr_pp _ _ _ _ NR), (nr_pp _ _ _ _ NR'). apply double_le. unfold Rdiv. apply Rmult_le_compat_l; [lra|]. apply Rinv_le; lra. }
  assert (N0 : 0 <= IZR (va_nPads a)) by (apply IZR_le; lia).
  assert (FL : row_phi_max_d row <= row_phi_max_d row'). { unfold row_phi_max_d. rewrite (nr_off _ _ _ _ NR), (nr_off _ _ _ _ NR'), (nr_np _ _ _ _ NR), (nr_np _ _ _ _ NR'). apply double_le. apply Rplus_le_compat_l. apply double_le. apply Rmult_le_compat_l; lra. }
  assert (ES : fsub phi 0 = phi) by (unfold fsub; rewrite Rminus_0_r; now apply rnd_id). split.
  - unfold vrow_getNearestPad_d. rewrite ltb_yes by lra. unfold Reqb. destruct (Req_EM_T _ _); [lra|]. rewrite (nr_off _ _ _ _ NR'). rewrite ES in *.
    assert (Q' : 0 <= fdiv phi (v_padPitch row') <= fdiv phi (v_padPitch row)).
    { split; [apply (rnd_lo 0); [apply double_0|]; apply Rmult_le_pos; [lra|]; left; apply Rinv_0_lt_compat; lra|]. apply double_le. unfold Rdiv. apply Rmult_le_compat_l; [lra|]. apply Rinv_le; lra. }
    set (z := Zfloor (fdiv phi (v_padPitch row'))). assert (Z1 : (0 <= z)%Z) by (apply Zfloor_lub; simpl; lra). assert (Z2 : (z < 65536)%Z). { apply lt_IZR. apply Rle_lt_trans with (fdiv phi (v_padPitch row')); [apply Zfloor_lb|]. apply Rle_lt_trans with (1 := proj2 Q'). apply Rlt_le_trans with (1 := proj2 Q). rewrite <- plus_IZR. apply IZR_le. lia. }
    unfold to_int. rewrite Ztrunc_IZR, int_small by lia. eexists. reflexivity.
  - unfold vrow_distance_d. rewrite (nr_off _ _ _ _ NR'), !leb_yes by lra. cbn [andb]. rewrite (leb_no r (r_hi row')) by lra. rewrite andb_false_r.
    assert (LO : r_lo row' <= r). { destruct (row_edges rMin a i' row' L ltac:(lia) NR') as [E1 _]. apply Rabs_le_inv in E1. nra. }
    rewrite ltb_no by lra. eexists. split; [reflexivity|]. apply fsub_pos; [apply rnd_double|exact DR|exact HI].
Qed.
Lemma row_at rMin a i row j r phi : vd_limits rMin a -> (0 <= i < va_repeat a)%Z -> near_row rMin a i row -> (0 <= j < va_nPads a)%Z -> is_double phi -> well_inside_vd rMin a i j r phi ->
  forall cosd, vrow_getNearestPad_d cosd row r phi = Ok (code i j) /\ vrow_distance_d cosd row r phi = Some 0.
Proof.
  intros L I NR J DP W cosd. destruct (row_pad rMin a i row j r phi L I NR J DP W) as (Q & F & F0 & PP). destruct (row_edges rMin a i row L I NR) as [E1 E2]. apply Rabs_le_inv in E1, E2. destruct W as [W _]. pose proof L as (L0 & L1 & L2 & L3 & L4 & L5 & L6). split.
  - unfold vrow_getNearestPad_d. rewrite ltb_yes by lra. unfold Reqb. destruct (Req_EM_T _ _); [lra|]. rewrite (nr_off _ _ _ _ NR), (floor_at j _ Q). unfold to_int. rewrite Ztrunc_IZR, int_small by lia. cbn [rmap]. f_equal. rewrite (nr_num _ _ _ _ NR). apply pack_code; lia.
  - unfold vrow_distance_d. rewrite (nr_off _ _ _ _ NR), !leb_yes by lra. reflexivity.
Qed.
Lemma sqrt_d_pos cosd row r phi e d : corner_d cosd row r phi e = Some d -> 0 <= d.
Proof. unfold corner_d. cbn zeta. destruct (Rltb _ 0); [discriminate|]. intros E. injection E as <-. apply (rnd_lo 0); [apply double_0|apply sqrt_pos]. Qed.
Lemma dist_pos cosd row r phi d : vrow_distance_d cosd row r phi = Some d -> 0 <= d.
Proof.
  unfold vrow_distance_d. destruct (Rleb (v_offset row) phi && _)%bool.
  - unfold Rleb, Rltb. destruct (Rle_dec (r_lo row) r), (Rle_dec r (r_hi row)); cbn [andb]; try (intros E; injection E as <-; lra).
    all: destruct (Rlt_dec r (r_lo row)); intros E; injection E as <-; apply (rnd_lo 0); (apply double_0 || lra).
  - cbn zeta. destruct (lt_nan _ _); apply sqrt_d_pos.
Qed.

(** ** the scan *)
Lemma scan_after cosd r phi p : forall rows, vd_scan_d cosd rows r phi (Some (p, Some 0)) = Ok (Some (p, Some 0)).
Proof.
  induction rows as [|row t IH]; [reflexivity|]. cbn [vd_scan_d]. destruct (lt_nan (vrow_distance_d cosd row r phi) (Some 0)) eqn:E; [|exact IH].
  exfalso. destruct (vrow_distance_d cosd row r phi) as [d|] eqn:D; [|discriminate]. apply dist_pos in D. cbn [lt_nan] in E. rewrite ltb_no in E by lra. discriminate.
Qed.
Lemma scan_before cosd r phi : forall rows rest, Forall (fun row => (exists p, vrow_getNearestPad_d cosd row r phi = Ok p) /\ exists d, vrow_distance_d cosd row r phi = Some d /\ 0 < d) rows ->
  forall best, match best with Some (_, d0) => exists d, d0 = Some d /\ 0 < d | None => True end ->
  exists best', match best' with Some (_, d0) => exists d, d0 = Some d /\ 0 < d | None => True end /\ vd_scan_d cosd (rows ++ rest) r phi best = vd_scan_d cosd rest r phi best'.
Proof.
  intros rows rest. induction 1 as [|row t ((p & E) & d & D & P) FA IH]; intros best B; [exists best; auto|]. cbn [app vd_scan_d].
  destruct (match best with Some (_, d0) => lt_nan _ d0 | None => true end).
  - rewrite E. cbn [rbind]. rewrite D. apply IH. eauto.
  - now apply IH.
Qed.
Lemma near_vd : forall rMin a l i j r phi cosd fuel, vd_limits rMin a -> vd_made_d rMin a l -> (0 <= i < va_repeat a)%Z -> (0 <= j < va_nPads a)%Z -> is_double r -> is_double phi -> phi <= two_pi ->
  well_inside_vd rMin a i j r phi -> vd_getNearestPad_d cosd fuel l r phi = Found (Ok (code i j)).
Proof.
  intros rMin a l i j r phi cosd fuel L M I J DR DP TP W. destruct (vmade_rows rMin a l (proj1 (proj2 (proj2 (proj2 L)))) M) as (P1 & P2 & LN & RW).
  assert (LI : (Z.to_nat i < List.length (v_rows l))%nat) by (rewrite LN; lia). destruct (nth_error (v_rows l) (Z.to_nat i)) as [row|] eqn:N; [|apply nth_error_None in N; lia].
  assert (NZ : forall m row, nth_error (v_rows l) m = Some row -> nthZ (v_rows l) (Z.of_nat m) = Some row) by (intros; unfold nthZ; destruct (Z.ltb_spec (Z.of_nat m) 0); [lia|now rewrite Nat2Z.id]).
  destruct (made_near rMin a l i row L M ltac:(lia)) as [_ NR]; [rewrite <- (Z2Nat.id i) by lia; now apply NZ|]. destruct (row_pad rMin a i row j r phi L I NR J DP W) as (_ & _ & F0 & _).
  unfold vd_getNearestPad_d. rewrite no_turn1 by (unfold two_pi in *; lra). f_equal.
  destruct (nth_error_split _ _ N) as (rows & rest & ES & EL).
  assert (FA : Forall (fun row => (exists p, vrow_getNearestPad_d cosd row r phi = Ok p) /\ exists d, vrow_distance_d cosd row r phi = Some d /\ 0 < d) rows).
  { apply Forall_forall. intros row' IN. apply In_nth_error in IN. destruct IN as (m & Nm). assert (Lm : (m < List.length rows)%nat) by (apply nth_error_Some; congruence).
    assert (Nm' : nth_error (v_rows l) m = Some row') by (rewrite ES, nth_error_app1 by exact Lm; exact Nm). destruct (made_near rMin a l (Z.of_nat m) row' L M ltac:(lia) (NZ _ _ Nm')) as [_ NR'].
    apply (row_before rMin a i (Z.of_nat m) row row' j r phi); auto; try lia. pose proof L as (_ & L1 & _). assert (H0 : 0 < va_height a) by lra. apply (rc_mono _ _ _ H0 _ _ _ m (Z.to_nat i) row' row RW (rnd_double _) Nm' N). lia. }
  rewrite ES. destruct (scan_before cosd r phi rows (row :: rest) FA None Logic.I) as (best & B & E). rewrite E. cbn [vd_scan_d]. destruct (row_at rMin a i row j r phi L I NR J DP W cosd) as [A1 A2].
  assert (TK : match best with Some (_, d0) => lt_nan (vrow_distance_d cosd row r phi) d0 | None => true end = true) by (destruct best as [[? ?]|]; [destruct B as (d & -> & D); rewrite A2; cbn [lt_nan]; now apply ltb_yes|reflexivity]).
  rewrite TK, A1, A2. cbn [rbind]. rewrite scan_after. cbn [rbind]. destruct (Z.eqb_spec (code i j) (-1)) as [X|X]; [exfalso; unfold code in X; pose proof L as (_ & _ & _ & _ & L4 & L5 & _); destruct (Z.ltb_spec (i * 65536 + j) 2147483648); lia|reflexivity].
Qed.

(** ** centres *)
Lemma centre_vd : forall rMin a l i j cosd fuel, vd_limits rMin a -> vd_made_d rMin a l -> (0 <= i < va_repeat a)%Z -> (0 <= j < va_nPads a)%Z ->
  exists c, vd_getPadCenter_d l (code i j) = Ok c /\ well_inside_vd rMin a i j (fst c) (snd c) /\ vd_getNearestPad_d cosd fuel l (fst c) (snd c) = Found (Ok (code i j)).
Proof.
  intros rMin a l i j cosd fuel L M I J. destruct (vmade_rows rMin a l (proj1 (proj2 (proj2 (proj2 L)))) M) as (P1 & P2 & LN & RW). pose proof L as (L0 & L1 & L2 & L3 & L4 & L5 & L6).
  assert (LI : (Z.to_nat i < List.length (v_rows l))%nat) by (rewrite LN; lia). destruct (nthZ (v_rows l) i) as [row|] eqn:N; [|unfold nthZ in N; destruct (Z.ltb_spec i 0); [lia|]; apply nth_error_None in N; lia].
  destruct (made_near rMin a l i row L M ltac:(lia) N) as [_ NR]. destruct (row_pitch rMin a i row L I NR) as [W0 P]. cbn zeta in *. pose proof (nr_rc _ _ _ _ NR) as C.
  assert (J0 : 0 <= IZR j <= 65535) by (split; apply IZR_le; lia). assert (I0 : 0 <= IZR i) by (apply IZR_le; lia). assert (I1 : IZR i + 1 <= IZR (va_repeat a)) by (rewrite <- plus_IZR; apply IZR_le; lia). assert (U : 0 < u64 <= / 1000000000000000) by (unfold u64; lra).
  set (phi := fadd 0 (fmul (fadd (IZR j) (1 / 2)) (v_padPitch row))). assert (EP : phi = to_double ((IZR j + 1 / 2) * v_padPitch row)). { unfold phi. rewrite half_at by lia. unfold fadd at 1. rewrite Rplus_0_l. apply rnd_id, rnd_double. }
  set (w := pad_w rMin a i) in *. set (pp := v_padPitch row) in *.
  assert (PB : (IZR j + 1 / 4) * w <= phi <= (IZR j + 3 / 4) * w).
  { rewrite EP. clearbody w pp. clear EP phi. assert (Y : / 10000000000000000 <= (IZR j + 1 / 2) * pp) by (unfold delta in P; nra). destruct (double_rel _ (small_d ((IZR j + 1 / 2) * pp) ltac:(lra))) as [A B].
    assert (X1 : (IZR j + 1 / 2) * ((1 - 3 * delta) * w) <= (IZR j + 1 / 2) * pp) by (apply Rmult_le_compat_l; lra). assert (X2 : (IZR j + 1 / 2) * pp <= (IZR j + 1 / 2) * ((1 + 3 * delta) * w)) by (apply Rmult_le_compat_l; lra).
    set (y := (IZR j + 1 / 2) * pp) in *. clearbody y. split.
    - apply Rle_trans with (2 := A). apply Rle_trans with ((1 - u64) * ((IZR j + 1 / 2) * ((1 - 3 * delta) * w))); [|apply Rmult_le_compat_l; lra]. replace ((1 - u64) * ((IZR j + 1 / 2) * ((1 - 3 * delta) * w))) with ((1 - u64) * (1 - 3 * delta) * (IZR j + 1 / 2) * w) by ring. apply Rmult_le_compat_r; [lra|]. unfold u64, delta. lra.
    - apply Rle_trans with (1 := B). apply Rle_trans with ((1 + u64) * ((IZR j + 1 / 2) * ((1 + 3 * delta) * w))); [apply Rmult_le_compat_l; lra|]. replace ((1 + u64) * ((IZR j + 1 / 2) * ((1 + 3 * delta) * w))) with ((1 + u64) * (1 + 3 * delta) * (IZR j + 1 / 2) * w) by ring. apply Rmult_le_compat_r; [lra|]. unfold u64, delta. lra. }
  assert (RB : rMin + IZR i * va_height a + va_height a / 4 <= v_rCentre row <= rMin + (IZR i + 1) * va_height a - va_height a / 4).
  { assert (ET : mid_r rMin a i <= 100000 * va_height a). { unfold mid_r. apply Rle_trans with (2 := L6). apply Rplus_le_compat_l, Rmult_le_compat_r; lra. } assert (delta * mid_r rMin a i <= va_height a / 100) by (unfold delta; lra). unfold mid_r in *. lra. }
  exists (v_rCentre row, phi). cbn [fst snd]. assert (W : well_inside_vd rMin a i j (v_rCentre row) phi) by (split; [lra|fold w; lra]). split; [|split; [exact W|]].
  - unfold vd_getPadCenter_d, vd_row_of, vd_getRowNumber. rewrite code_row, code_pad by lia. destruct (Z.ltb_spec i 0); [lia|]. destruct (Z.ltb_spec (Z.of_nat (List.length (v_rows l)) - 1) i); [lia|]. cbn [orb rbind]. unfold sub. rewrite N. cbn [rmap]. now rewrite (nr_off _ _ _ _ NR).
  - apply (near_vd rMin a); auto; [|apply rnd_double|].
    + unfold nthZ in N. destruct (Z.ltb_spec i 0); [lia|]. assert (H0 : 0 < va_height a) by lra. exact (proj2 (rc_grows _ _ _ H0 _ _ _ _ _ RW (rnd_double _) N)).
    + rewrite EP. apply Rle_trans with (2 := nr_turn _ _ _ _ NR). rewrite <- (nr_pp _ _ _ _ NR). apply double_le. fold pp. assert (IZR j + 1 <= IZR (va_nPads a)) by (rewrite <- plus_IZR; apply IZR_le; lia). rewrite Rmult_comm. apply Rmult_le_compat_l; [|lra]. unfold delta in P. nra.
Qed.

