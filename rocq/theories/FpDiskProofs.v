From Coq Require Import ZArith Reals Lia Lra Psatz List Bool.
From Flocq Require Import Core.
From Verif Require Import Base RBase DiskBase NumModel NumSpec FpModel FpProofs FpRectProofs2 DiskSpec DiskProofs FpaModel FpsModel FpZpModel FpZpProofs FpFpaModel FpFpaSpec FpFpaProofs FpFpsModel FpFpsSpec FpFpsProofs FpDiskSpec.
Import ListNotations.
Open Scope R_scope.

(** the quotient for any point of [n] cells *)
Lemma cell_any D n y : (0 < n <= 65536)%Z -> / 1000000000 <= D / IZR n -> 0 <= y -> let c := y / (D / IZR n) in
  0 <= fdiv (to_double y) (fdiv (to_double D) (IZR n)) /\
  (1 - 8 * u64) * c - / 100000000000000000000 <= fdiv (to_double y) (fdiv (to_double D) (IZR n)) <= (1 + 8 * u64) * c + / 100000000000000000000.
Proof.
  intros N H Y c. destruct (cell_size D n N H) as [S1 S2]. set (h := fdiv (to_double D) (IZR n)) in *. assert (EC : y = c * (D / IZR n)) by (unfold c; field; split; [apply not_0_IZR; lia|intros E; rewrite E in H; unfold Rdiv in H; rewrite Rmult_0_l in H; lra]).
  set (H0 := D / IZR n) in *. clearbody h H0 c. assert (C0 : 0 <= c) by nra. assert (U : 0 < u64 <= / 1000000000000000) by (unfold u64; lra). assert (Hh : / 2000000000 <= h) by nra.
  destruct (double_gen y Y) as [A B]. set (yd := to_double y) in *. assert (YD : 0 <= yd) by (apply (rnd_lo 0); [apply double_0|exact Y]). clearbody yd.
  assert (ET : yd / h * h = yd) by (field; lra). set (t := yd / h) in *. assert (T0 : 0 <= t) by (apply Rmult_le_reg_r with h; [lra|]; rewrite ET; lra). assert (EQ : fdiv yd h = to_double t) by reflexivity. rewrite EQ. clearbody t.
  assert (TY : 0 <= ty <= / 1000000000000000000000 * h) by (unfold ty; lra).
  assert (CH : (1 - 3 * u64) * (c * H0) <= c * h <= (1 + 3 * u64) * (c * H0)) by (split; nra). rewrite <- EC in CH.
  assert (T1 : (1 - 6 * u64) * c - / 1000000000000000000000 <= t). { apply Rmult_le_reg_r with h; [lra|]. rewrite ET. replace (((1 - 6 * u64) * c - / 1000000000000000000000) * h) with ((1 - 6 * u64) * (c * h) - / 1000000000000000000000 * h) by ring.
    assert ((1 - 6 * u64) * (c * h) <= (1 - 6 * u64) * ((1 + 3 * u64) * y)) by (apply Rmult_le_compat_l; lra). assert ((1 - 6 * u64) * (1 + 3 * u64) <= 1 - u64) by (unfold u64; lra). assert ((1 - 6 * u64) * ((1 + 3 * u64) * y) <= (1 - u64) * y) by (replace ((1 - 6 * u64) * ((1 + 3 * u64) * y)) with ((1 - 6 * u64) * (1 + 3 * u64) * y) by ring; apply Rmult_le_compat_r; lra). lra. }
  assert (T2 : t <= (1 + 6 * u64) * c + / 1000000000000000000000). { apply Rmult_le_reg_r with h; [lra|]. rewrite ET. replace (((1 + 6 * u64) * c + / 1000000000000000000000) * h) with ((1 + 6 * u64) * (c * h) + / 1000000000000000000000 * h) by ring.
    assert ((1 + 6 * u64) * ((1 - 3 * u64) * y) <= (1 + 6 * u64) * (c * h)) by (apply Rmult_le_compat_l; lra). assert (1 + u64 <= (1 + 6 * u64) * (1 - 3 * u64)) by (unfold u64; lra). assert ((1 + u64) * y <= (1 + 6 * u64) * ((1 - 3 * u64) * y)) by (replace ((1 + 6 * u64) * ((1 - 3 * u64) * y)) with ((1 + 6 * u64) * (1 - 3 * u64) * y) by ring; apply Rmult_le_compat_r; lra). lra. }
  split; [apply (rnd_lo 0); [apply double_0|exact T0]|]. destruct (double_gen t T0) as [C1 C2]. assert (TY2 : ty <= / 1000000000000000000000) by (unfold ty; lra).
  assert (UC : 0 <= u64 * c) by nra. assert (UUC : 0 <= u64 * (u64 * c) <= / 1000000000000000 * (u64 * c)) by nra. split.
  - assert ((1 - u64) * ((1 - 6 * u64) * c - / 1000000000000000000000) <= (1 - u64) * t) by (apply Rmult_le_compat_l; lra). nra.
  - assert ((1 + u64) * t <= (1 + u64) * ((1 + 6 * u64) * c + / 1000000000000000000000)) by (apply Rmult_le_compat_l; lra). nra.
Qed.
(** the cell found contains the point, up to a millionth *)
Lemma cell_found D n y : (0 < n <= 65536)%Z -> / 1000000000 <= D / IZR n -> 0 <= y <= D -> let q := fdiv (to_double y) (fdiv (to_double D) (IZR n)) in let H0 := D / IZR n in
  let i := Zfloor q in let k := (if n <=? i then n - 1 else i)%Z in (0 <= i <= n)%Z /\ (0 <= k < n)%Z /\ (IZR k - / 1000000) * H0 <= y <= (IZR k + 1 + / 1000000) * H0 /\
  (y <= (1 - / 10000000000000) * D -> (i < n)%Z).
Proof.
  intros N H Y q H0 i k. destruct (cell_any D n y N H (proj1 Y)) as [Q0 Q]. fold q in Q0, Q. assert (N1 : 1 <= IZR n <= 65536) by (split; apply IZR_le; lia). fold H0 in Q, H.
  assert (ED : D = IZR n * H0) by (unfold H0; field; lra). set (c := y / H0) in *. assert (EC : y = c * H0) by (unfold c; field; lra). assert (C0 : 0 <= c <= IZR n). { split; [apply Rmult_le_reg_r with H0; lra|apply Rmult_le_reg_r with H0; lra]. }
  pose proof (Zfloor_lb q) as F1. pose proof (Zfloor_ub q) as F2. fold i in F1, F2. assert (I0 : (0 <= i)%Z) by (apply Zfloor_lub; simpl; lra). clearbody q c H0 i.
  assert (U : 0 < u64 <= / 1000000000000000) by (unfold u64; lra). assert (UC : 0 <= u64 * c <= / 10000000000) by nra.
  assert (IN : (i < n + 1)%Z) by (apply lt_IZR; rewrite plus_IZR; lra). split; [lia|].
  assert (K : IZR k - / 1000000 <= c <= IZR k + 1 + / 1000000). { unfold k. destruct (Z.leb_spec n i) as [G|G]; [|lra]. apply IZR_le in G. rewrite minus_IZR. lra. }
  split; [unfold k; destruct (Z.leb_spec n i); lia|]. split; [rewrite EC; split; apply Rmult_le_compat_r; lra|]. intros B. apply lt_IZR.
  assert (CN : c <= (1 - / 10000000000000) * IZR n) by (apply Rmult_le_reg_r with H0; [lra|]; rewrite <- EC; rewrite ED in B; lra). apply Rle_lt_trans with (1 := F1). apply Rle_lt_trans with (1 := proj2 Q).
  assert (u64 * c <= u64 * IZR n) by nra. assert (8 * (u64 * IZR n) <= / 1000000000000000 * IZR n) by (unfold u64; lra). lra.
Qed.

Lemma fpa_any : forall a l r phi fuel, fpa_sane a -> moderate a -> new_fpa_d (pa_rMin a) (pa_rMax a) (pa_nRow a) (pa_phiMin a) (pa_phiMax a) (pa_nPads a) = Ok l ->
  pa_rMin a <= r <= pa_rMax a -> pa_phiMin a + / 1000000000000 <= phi <= pa_phiMax a - / 1000000000000 ->
  exists i j, fpa_pad a i j /\ on_pad_fpa a i j r phi /\ fpa_getNearestPad_d fuel l r phi = Found (Ok (code i j)).
Proof.
  intros a l r phi fuel (S1 & S2 & S3 & S4) M E RB PB. unfold new_fpa_d in E. destruct (Z.ltb_spec (pa_nRow a) 0); [lia|]. injection E as <-. unfold fpa_getNearestPad_d. cbn [p_phiMax p_phiMin p_rMin p_rowHeight p_padAngle p_nRow]. pose proof M as (M1 & M2 & _ & _ & M5).
  destruct (cell_found (pa_phiMax a - pa_phiMin a) (pa_nPads a) (phi - pa_phiMin a) ltac:(lia) ltac:(fold (pad_angle a); lra) ltac:(lra)) as (J1 & J2 & J3 & J4).
  destruct (cell_found (pa_rMax a - pa_rMin a) (pa_nRow a) (r - pa_rMin a) ltac:(lia) ltac:(fold (row_height a); lra) ltac:(lra)) as (I1 & I2 & I3 & _).
  fold (fsub phi (pa_phiMin a)) (fsub (pa_phiMax a) (pa_phiMin a)) (pad_angle a) in J1, J2, J3, J4. fold (fsub r (pa_rMin a)) (fsub (pa_rMax a) (pa_rMin a)) (row_height a) in I1, I2, I3.
  assert (JN : phi - pa_phiMin a <= (1 - / 10000000000000) * (pa_phiMax a - pa_phiMin a)) by (unfold two_pi in M5; lra). specialize (J4 JN).
  set (q := fdiv (fsub phi (pa_phiMin a)) _) in *. set (qi := fdiv (fsub r (pa_rMin a)) _) in *. set (j := Zfloor q) in *. set (i0 := Zfloor qi) in *. destruct (Z.leb_spec (pa_nPads a) j); [lia|].
  exists (if pa_nRow a <=? i0 then pa_nRow a - 1 else i0)%Z, j. set (i := (if pa_nRow a <=? i0 then pa_nRow a - 1 else i0)%Z) in *.
  split; [split; lia|]. split. { unfold on_pad_fpa, fpa_r, fpa_phi. fold (row_height a) (pad_angle a). rewrite !plus_IZR. split; lra. }
  rewrite ltb_no by lra. rewrite (no_turn a phi fuel M PB). rewrite !leb_yes by lra. cbn [andb]. f_equal. rewrite ltb_no by lra.
  assert (TQ : Ztrunc q = j). { unfold j. apply Ztrunc_floor. apply Rle_trans with (IZR j); [now apply (IZR_le 0)|apply Zfloor_lb]. }
  fold q. unfold to_int at 1. rewrite TQ, int_small by lia. cbn [rbind]. unfold to_int. rewrite Ztrunc_IZR. assert (IO : int_okb i0 = true) by (unfold int_okb; apply andb_true_iff; split; apply Z.leb_le; lia). rewrite IO. cbn [rbind]. fold i.
  unfold fpa_getPadIndex. cbn [p_nRow p_nPadsInRow]. destruct (Z.ltb_spec (pa_nRow a - 1) i); [lia|]. destruct (Z.ltb_spec (pa_nPads a - 1) j); [lia|]. f_equal. apply pack_code; lia.
Qed.

Lemma fps_any : forall a l r phi fuel, ring a -> fps_made_d a l -> rows_ok a l -> rows_filled l -> (0 < fps_getNRows l)%Z -> is_double phi -> / 100000 <= r -> fa_rMin a <= r <= fa_rMax a -> 0 <= phi <= fa_phiMax a ->
  exists i np j, row_has l i np /\ (0 <= i < fps_getNRows l)%Z /\ (0 <= j < np)%Z /\ on_pad_fps a l i np j r phi /\ fps_getNearestPad_d fuel l r phi = Found (Ok (code i j)).
Proof.
  intros a l r phi fuel RG MD (RO1 & RO2) RF N0 DP R5 RB PB. pose proof (made_rep a l RG MD) as F. destruct RG as (R1 & R2 & R3). unfold row_h in RO2. pose proof (fr_len a l F) as FL. rewrite FL in *. set (n := f_nRow l) in *.
  destruct (cell_found (fa_rMax a - fa_rMin a) n (r - fa_rMin a) ltac:(lia) ltac:(lra) ltac:(lra)) as (I1 & I2 & I3 & _). fold (fsub r (fa_rMin a)) (fsub (fa_rMax a) (fa_rMin a)) in I1, I2, I3. set (i0 := Zfloor (fdiv (fsub r (fa_rMin a)) (fdiv (fsub (fa_rMax a) (fa_rMin a)) (IZR n)))) in *. set (i := (if n <=? i0 then n - 1 else i0)%Z) in *.
  destruct (RF i) as (np & RH & NP); [rewrite FL; fold n; lia|]. destruct (row_has_inv a l i np F ltac:(rewrite FL; fold n; lia) ltac:(lia) ltac:(lia) RH) as (IN & row & ER & EN). destruct (row_values a l i row F ltac:(lia) ER) as (V1 & V2 & _).
  assert (NP1 : 1 <= IZR np <= 65536) by (split; apply IZR_le; lia).
  assert (HW : / 1000000000 <= fa_phiMax a / IZR np). { apply Rmult_le_reg_r with (IZR np); [lra|]. replace (fa_phiMax a / IZR np * IZR np) with (fa_phiMax a) by (field; lra). apply Rle_trans with (/ 1000000000 * 65536); [apply Rmult_le_compat_l; lra|lra]. }
  destruct (cell_found (fa_phiMax a) np phi ltac:(lia) HW PB) as (J1 & J2 & J3 & _). rewrite (rnd_id _ DP), (rnd_id _ R3) in *. set (j0 := Zfloor (fdiv phi (fdiv (fa_phiMax a) (IZR np)))) in *. set (j := (if np <=? j0 then np - 1 else j0)%Z) in *.
  exists i, np, j. split; [exact RH|]. split; [fold n in FL; lia|]. split; [exact J2|]. split. { unfold on_pad_fps, row_h. rewrite FL. fold n. split; lra. }
  assert (E6 : to_double (1 / 1000000) <= / 100000). { destruct (double_rel (1 / 1000000)) as [_ X]; [apply small_d; lra|]. unfold u64 in X. lra. }
  unfold fps_getNearestPad_d. rewrite (Rabs_pos_eq r) by lra. rewrite ltb_no by lra.
  assert (WR : (if Rltb (Rabs (fsub (f_phiMax l) two_pi)) (to_double (1 / 1000000)) then wrap_circle fuel phi else wrap_two_turns fuel phi) = Some phi)
    by (destruct (Rltb _ _); [apply no_turn1|apply no_turn2]; unfold two_pi in *; lra). rewrite WR.
  rewrite (fr_phi a l F), (fr_rMin a l F), (fr_h a l F). fold n. rewrite ltb_yes, !leb_yes by lra. cbn [andb]. f_equal. rewrite ltb_no by lra. fold i0.
  unfold to_int at 1. rewrite Ztrunc_IZR. assert (IO : int_okb i0 = true) by (unfold int_okb; apply andb_true_iff; split; apply Z.leb_le; lia). rewrite IO. cbn [rbind]. fold i. unfold sub at 1. rewrite ER. cbn [rbind]. rewrite EN. destruct (Z.eqb_spec np 0); [lia|]. rewrite V2, EN. fold j0.
  unfold to_int. rewrite Ztrunc_IZR. assert (JO : int_okb j0 = true) by (unfold int_okb; apply andb_true_iff; split; apply Z.leb_le; lia). rewrite JO. cbn [rbind]. fold j.
  unfold fps_getPadIndex. assert (U : uint32 i = i) by (unfold uint32; apply Z.mod_small; lia). rewrite U. unfold fps_getNRows in FL. rewrite FL. fold n. rewrite Z.mod_small by lia. destruct (Z.ltb_spec (n - 1) i); [lia|].
  unfold sub. rewrite ER. cbn [rbind]. rewrite EN. destruct (Z.ltb_spec (np - 1) j); [lia|]. f_equal. apply pack_code; lia.
Qed.
