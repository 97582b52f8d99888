From Coq Require Import ZArith Reals Lia Lra Psatz List Bool.
From Flocq Require Import Core.
From Verif Require Import Base RBase DiskBase NumModel NumSpec FpModel FpProofs DiskSpec DiskProofs FpaModel FpZpModel FpZpProofs FpFpaModel FpFpaSpec.
Import ListNotations.
Open Scope R_scope.

Lemma double_abs x : Rabs (to_double x - x) <= u64 * Rabs x + ty.
Proof.
  destruct (Rle_dec 0 x) as [H|H].
  - destruct (double_gen x H). rewrite (Rabs_pos_eq x H). apply Rabs_le. lra.
  - destruct (double_gen (- x) ltac:(lra)) as [A B]. rewrite rnd_opp in A, B. rewrite (Rabs_left x) by lra. apply Rabs_le. lra.
Qed.

(** a coordinate [y] from the lower edge, [n] cells of the same size over the length [D] *)
Lemma cell_size D n : (0 < n <= 65536)%Z -> / 1000000000 <= D / IZR n ->
  (1 - 3 * u64) * (D / IZR n) <= fdiv (to_double D) (IZR n) <= (1 + 3 * u64) * (D / IZR n).
Proof.
  intros N H. assert (N1 : 1 <= IZR n) by (apply IZR_le; lia). set (H0 := D / IZR n) in *. assert (ED : D = H0 * IZR n) by (unfold H0; field; lra).
  assert (HD : / 1000000000 <= D) by (rewrite ED; nra). destruct (double_rel D (small_d D ltac:(lra))) as [A B].
  assert (E : to_double D / IZR n = to_double D * / IZR n) by reflexivity. assert (P : 0 < / IZR n) by (apply Rinv_0_lt_compat; lra).
  assert (A' : (1 - u64) * H0 <= to_double D / IZR n) by (unfold H0, Rdiv; rewrite <- Rmult_assoc; apply Rmult_le_compat_r; lra).
  assert (B' : to_double D / IZR n <= (1 + u64) * H0) by (unfold H0, Rdiv; rewrite <- Rmult_assoc; apply Rmult_le_compat_r; lra).
  unfold fdiv. set (t := to_double D / IZR n) in *. destruct (double_rel t) as [C1 C2]; [apply small_d; unfold u64 in *; lra|]. clearbody t H0. unfold u64 in *. split; lra.
Qed.
Lemma cell_index D n y i : (0 < n <= 65536)%Z -> / 1000000000 <= D / IZR n -> (0 <= i < n)%Z ->
  (IZR i + / 1000000) * (D / IZR n) <= y <= (IZR i + 1 - / 1000000) * (D / IZR n) ->
  IZR i <= fdiv (to_double y) (fdiv (to_double D) (IZR n)) < IZR i + 1.
Proof.
  intros N H I Y. destruct (cell_size D n N H) as [S1 S2]. set (h := fdiv (to_double D) (IZR n)) in *. set (H0 := D / IZR n) in *. clearbody h H0.
  assert (I0 : 0 <= IZR i) by (apply IZR_le; lia). assert (I1 : IZR i <= 65535) by (apply IZR_le; lia). set (x := IZR i) in *. clearbody x. clear I N.
  assert (Hh : 0 < h) by (unfold u64 in *; lra). assert (Y0 : / 1000000 * H0 <= y) by nra. destruct (double_rel y) as [A B]; [apply small_d; lra|]. set (ty' := to_double y) in *. clearbody ty'.
  assert (T1 : (1 - 6 * u64) * (x + / 1000000) <= ty' / h).
  { apply Rmult_le_reg_r with h; [exact Hh|]. replace (ty' / h * h) with ty' by (field; lra). apply Rle_trans with (2 := A).
    apply Rle_trans with ((1 - 6 * u64) * (x + / 1000000) * ((1 + 3 * u64) * H0)); [apply Rmult_le_compat_l; [unfold u64; nra|lra]|].
    apply Rle_trans with ((1 - u64) * ((x + / 1000000) * H0)); [|apply Rmult_le_compat_l; [unfold u64; lra|lra]].
    assert (Q : 0 <= (x + / 1000000) * H0) by (apply Rmult_le_pos; lra). set (q := (x + / 1000000) * H0) in *. replace ((1 - 6 * u64) * (x + / 1000000) * ((1 + 3 * u64) * H0)) with ((1 - 6 * u64) * (1 + 3 * u64) * q) by (unfold q; ring).
    apply Rmult_le_compat_r; [exact Q|unfold u64; lra]. }
  assert (T2 : ty' / h <= (1 + 6 * u64) * (x + 1 - / 1000000)).
  { apply Rmult_le_reg_r with h; [exact Hh|]. replace (ty' / h * h) with ty' by (field; lra). apply Rle_trans with (1 := B).
    apply Rle_trans with ((1 + 6 * u64) * (x + 1 - / 1000000) * ((1 - 3 * u64) * H0)); [|apply Rmult_le_compat_l; [unfold u64; nra|lra]].
    apply Rle_trans with ((1 + u64) * ((x + 1 - / 1000000) * H0)); [apply Rmult_le_compat_l; [unfold u64; lra|lra]|].
    assert (Q : 0 <= (x + 1 - / 1000000) * H0) by (apply Rmult_le_pos; lra). set (q := (x + 1 - / 1000000) * H0) in *. replace ((1 + 6 * u64) * (x + 1 - / 1000000) * ((1 - 3 * u64) * H0)) with ((1 + 6 * u64) * (1 - 3 * u64) * q) by (unfold q; ring).
    apply Rmult_le_compat_r; [exact Q|unfold u64; lra]. }
  unfold fdiv. set (t := ty' / h) in *. clearbody t. destruct (double_rel t) as [C1 C2]; [apply small_d; unfold u64 in *; lra|]. set (q := to_double t) in *. clearbody q. clear -T1 T2 C1 C2 I0 I1. unfold u64 in *. split; lra.
Qed.
Lemma floor_at i q : IZR i <= q < IZR i + 1 -> Zfloor q = i.
Proof. intros [A B]. apply Zfloor_imp. rewrite plus_IZR. lra. Qed.
Lemma trunc_at i q : (0 <= i)%Z -> IZR i <= q < IZR i + 1 -> Ztrunc q = i.
Proof. intros I H. rewrite Ztrunc_floor; [now apply floor_at|]. apply Rle_trans with (IZR i); [now apply (IZR_le 0)|lra]. Qed.
Lemma int_small i : (0 <= i < 65536)%Z -> int_okb i = true.
Proof. intros H. unfold int_okb. apply andb_true_iff. split; apply Z.leb_le; lia. Qed.

(** the loops do not turn *)
Lemma no_turn a phi fuel : moderate a -> pa_phiMin a + / 1000000000000 <= phi <= pa_phiMax a - / 1000000000000 ->
  wrap_around fuel (fdiv (fadd (pa_phiMax a) (pa_phiMin a)) 2) phi = Some phi.
Proof.
  intros (_ & _ & A1 & A2 & A3) P. set (lo := pa_phiMin a) in *. set (hi := pa_phiMax a) in *. clearbody lo hi. apply Rabs_le_inv in A1. apply Rabs_le_inv in A2.
  pose proof (double_abs (hi + lo)) as E1. fold (fadd hi lo) in E1. assert (Q1 : Rabs (hi + lo) <= 200) by (apply Rabs_le; lra). set (s := fadd hi lo) in *. clearbody s.
  assert (E1' : Rabs (s - (hi + lo)) <= / 10000000000000) by (unfold u64, ty in *; lra). apply Rabs_le_inv in E1'.
  pose proof (double_abs (s / 2)) as E2. fold (fdiv s 2) in E2. assert (Q2 : Rabs (s / 2) <= 101) by (apply Rabs_le; lra). set (m := fdiv s 2) in *. clearbody m.
  assert (E2' : Rabs (m - s / 2) <= / 10000000000000) by (unfold u64, ty in *; lra). apply Rabs_le_inv in E2'.
  pose proof (double_abs (m - m_pi)) as E3. fold (fsub m m_pi) in E3. assert (Q3 : Rabs (m - m_pi) <= 110) by (apply Rabs_le; unfold m_pi; lra). set (l' := fsub m m_pi) in *.
  assert (E3' : Rabs (l' - (m - m_pi)) <= / 10000000000000) by (unfold u64, ty in *; lra). apply Rabs_le_inv in E3'.
  pose proof (double_abs (m + m_pi)) as E4. fold (fadd m m_pi) in E4. assert (Q4 : Rabs (m + m_pi) <= 110) by (apply Rabs_le; unfold m_pi; lra). set (h' := fadd m m_pi) in *.
  assert (E4' : Rabs (h' - (m + m_pi)) <= / 10000000000000) by (unfold u64, ty in *; lra). apply Rabs_le_inv in E4'.
  unfold wrap_around, wrap. fold l' h'. assert (L1 : ~ phi < l') by (unfold two_pi, m_pi in *; lra). assert (L2 : ~ h' < phi) by (unfold two_pi, m_pi in *; lra).
  assert (R1 : Rltb phi l' = false) by (unfold Rltb; destruct (Rlt_dec phi l'); [contradiction|reflexivity]). assert (R2 : Rltb h' phi = false) by (unfold Rltb; destruct (Rlt_dec h' phi); [contradiction|reflexivity]).
  destruct fuel; cbn [loop_up loop_down]; rewrite R1; cbn [loop_down]; now rewrite R2.
Qed.

Lemma near_cell : forall a l i j r phi fuel, fpa_sane a -> moderate a -> new_fpa_d (pa_rMin a) (pa_rMax a) (pa_nRow a) (pa_phiMin a) (pa_phiMax a) (pa_nPads a) = Ok l ->
  fpa_pad a i j -> well_inside a i j r phi -> fpa_getNearestPad_d fuel l r phi = Found (Ok (code i j)).
Proof.
  intros a l i j r phi fuel (S1 & S2 & S3 & S4) M E (PI' & PJ) (W1 & W2). unfold new_fpa_d in E. destruct (Z.ltb_spec (pa_nRow a) 0); [lia|]. injection E as <-. unfold fpa_getNearestPad_d.
  cbn [p_phiMax p_phiMin p_rMin p_rowHeight p_padAngle p_nRow]. pose proof M as (M1 & M2 & _ & _ & M5).
  assert (NR : 1 <= IZR (pa_nRow a)) by (apply IZR_le; lia). assert (NP : 1 <= IZR (pa_nPads a)) by (apply IZR_le; lia).
  unfold fpa_r in W1. unfold fpa_phi in W2. fold (row_height a) in W1. fold (pad_angle a) in W2. rewrite plus_IZR in W1, W2.
  assert (I0 : 0 <= IZR i) by (apply IZR_le; lia). assert (J0 : 0 <= IZR j) by (apply IZR_le; lia). assert (J1 : IZR j + 1 <= IZR (pa_nPads a)) by (rewrite <- plus_IZR; apply IZR_le; lia).
  assert (EP : pa_phiMax a = pa_phiMin a + IZR (pa_nPads a) * pad_angle a) by (unfold pad_angle; field; lra).
  assert (PB : pa_phiMin a + / 1000000000000 <= phi <= pa_phiMax a - / 1000000000000) by (rewrite EP; nra).
  assert (RB : pa_rMin a <= r) by nra.
  assert (R0 : Rltb r 0 = false) by (unfold Rltb; destruct (Rlt_dec r 0); [lra|reflexivity]). rewrite R0. rewrite (no_turn a phi fuel M PB).
  assert (T1 : Rleb phi (pa_phiMax a) = true) by (unfold Rleb; destruct (Rle_dec phi (pa_phiMax a)); [reflexivity|lra]). assert (T2 : Rleb (pa_phiMin a) phi = true) by (unfold Rleb; destruct (Rle_dec (pa_phiMin a) phi); [reflexivity|lra]).
  rewrite T1, T2. cbn [andb]. f_equal.
  pose proof (cell_index (pa_phiMax a - pa_phiMin a) (pa_nPads a) (phi - pa_phiMin a) j ltac:(lia) ltac:(fold (pad_angle a); lra) PJ ltac:(fold (pad_angle a); lra)) as CJ.
  pose proof (cell_index (pa_rMax a - pa_rMin a) (pa_nRow a) (r - pa_rMin a) i ltac:(lia) ltac:(fold (row_height a); lra) PI' ltac:(fold (row_height a); lra)) as CI.
  fold (fsub phi (pa_phiMin a)) (fsub (pa_phiMax a) (pa_phiMin a)) in CJ. fold (fsub r (pa_rMin a)) (fsub (pa_rMax a) (pa_rMin a)) in CI.
  unfold to_int at 1. rewrite (trunc_at j _ (proj1 PJ) CJ), int_small by lia. cbn [rbind].
  assert (R1 : Rltb r (pa_rMin a) = false) by (unfold Rltb; destruct (Rlt_dec r (pa_rMin a)); [lra|reflexivity]). rewrite R1.
  rewrite (floor_at i _ CI). unfold to_int. rewrite Ztrunc_IZR, int_small by lia. cbn [rbind].
  destruct (Z.leb_spec (pa_nRow a) i); [lia|]. unfold fpa_getPadIndex. cbn [p_nRow p_nPadsInRow]. destruct (Z.ltb_spec (pa_nRow a - 1) i); [lia|]. destruct (Z.ltb_spec (pa_nPads a - 1) j); [lia|].
  f_equal. apply pack_code; lia.
Qed.

(** ** the centre *)
Lemma half_at i : (0 <= i < 65536)%Z -> fadd (IZR i) (1 / 2) = IZR i + 1 / 2.
Proof.
  intros H. apply rnd_id. exists (2 * i + 1)%Z, (-1)%Z. split; [|split; lia]. rewrite plus_IZR, mult_IZR. unfold powerRZ. simpl. lra.
Qed.
Lemma centre_coord D n i lo : (0 < n <= 65536)%Z -> / 1000000000 <= D / IZR n -> (0 <= i < n)%Z -> Rabs lo + D <= 1000000000000 * (D / IZR n) ->
  lo + (IZR i + / 1000000) * (D / IZR n) <= fadd (fmul (fadd (IZR i) (1 / 2)) (fdiv (to_double D) (IZR n))) lo <= lo + (IZR i + 1 - / 1000000) * (D / IZR n).
Proof.
  intros N H I B. rewrite half_at by lia. destruct (cell_size D n N H) as [S1 S2]. set (h := fdiv (to_double D) (IZR n)) in *. set (H0 := D / IZR n) in *.
  assert (N1 : 1 <= IZR n) by (apply IZR_le; lia). assert (ED : D = H0 * IZR n) by (unfold H0; field; lra). assert (I0 : 0 <= IZR i) by (apply IZR_le; lia). assert (I1 : IZR i <= 65535) by (apply IZR_le; lia).
  assert (IN : IZR i + 1 <= IZR n) by (rewrite <- plus_IZR; apply IZR_le; lia). clearbody h H0. set (x := IZR i) in *. clearbody x. set (nn := IZR n) in *. clearbody nn. clear N I.
  assert (P0 : 0 < h) by (unfold u64 in *; lra). assert (XH : 0 <= x * H0) by (apply Rmult_le_pos; lra).
  assert (A1 : (1 - 3 * u64) * ((x + 1 / 2) * H0) <= (x + 1 / 2) * h) by (replace ((1 - 3 * u64) * ((x + 1 / 2) * H0)) with ((x + 1 / 2) * ((1 - 3 * u64) * H0)) by ring; apply Rmult_le_compat_l; lra).
  assert (A2 : (x + 1 / 2) * h <= (1 + 3 * u64) * ((x + 1 / 2) * H0)) by (replace ((1 + 3 * u64) * ((x + 1 / 2) * H0)) with ((x + 1 / 2) * ((1 + 3 * u64) * H0)) by ring; apply Rmult_le_compat_l; lra).
  set (p := (x + 1 / 2) * h) in *. set (P := (x + 1 / 2) * H0) in *. assert (PP : 0 <= P) by (unfold P; apply Rmult_le_pos; lra). assert (PU : P <= 65536 * H0) by (unfold P; apply Rmult_le_compat_r; lra).
  assert (PD : P <= D). { rewrite ED. unfold P. rewrite (Rmult_comm H0). apply Rmult_le_compat_r; lra. }
  unfold fmul. fold p. destruct (double_rel p) as [B1 B2]; [apply small_d; unfold P, u64 in *; lra|]. set (q := to_double p) in *. clearbody q.
  assert (Q1 : (1 - 5 * u64) * P <= q) by (unfold u64 in *; lra). assert (Q2 : q <= (1 + 5 * u64) * P) by (unfold u64 in *; lra).
  pose proof (double_abs (q + lo)) as E. fold (fadd q lo) in E. set (s := fadd q lo) in *. clearbody s.
  assert (QL : Rabs (q + lo) <= 2 * (1000000000000 * H0)). { apply Rle_trans with (Rabs q + Rabs lo); [apply Rabs_triang|]. rewrite Rabs_pos_eq by (unfold u64 in *; lra). unfold u64 in *. lra. }
  assert (E' : Rabs (s - (q + lo)) <= H0 / 1000) by (unfold u64, ty in *; lra). apply Rabs_le_inv in E'. replace ((x + / 1000000) * H0) with (P - H0 / 2 + H0 / 1000000) by (unfold P; field). replace ((x + 1 - / 1000000) * H0) with (P + H0 / 2 - H0 / 1000000) by (unfold P; field).
  unfold u64 in *. split; lra.
Qed.
Lemma centre_near : forall a l i j fuel, fpa_sane a -> moderate a -> new_fpa_d (pa_rMin a) (pa_rMax a) (pa_nRow a) (pa_phiMin a) (pa_phiMax a) (pa_nPads a) = Ok l ->
  fpa_pad a i j -> pa_rMax a <= 1000000000000 * row_height a ->
  let c := fpa_getPadCenter_d l (code i j) in well_inside a i j (fst c) (snd c) /\ fpa_getNearestPad_d fuel l (fst c) (snd c) = Found (Ok (code i j)).
Proof.
  intros a l i j fuel S M E P B c. assert (W : well_inside a i j (fst c) (snd c)); [|split; [exact W|now apply (near_cell a l)]].
  destruct S as (S1 & S2 & S3 & S4). destruct P as (PI' & PJ). destruct M as (M1 & M2 & M3 & M4 & M5). unfold new_fpa_d in E. destruct (Z.ltb_spec (pa_nRow a) 0); [lia|]. injection E as <-.
  unfold c, fpa_getPadCenter_d, well_inside. cbn [fst snd p_rowHeight p_padAngle p_rMin p_phiMin]. rewrite code_row, code_pad by lia.
  pose proof (centre_coord (pa_rMax a - pa_rMin a) (pa_nRow a) i (pa_rMin a) ltac:(lia) ltac:(fold (row_height a); lra) PI') as CI. fold (row_height a) in CI. specialize (CI ltac:(rewrite Rabs_pos_eq by lra; lra)).
  pose proof (centre_coord (pa_phiMax a - pa_phiMin a) (pa_nPads a) j (pa_phiMin a) ltac:(lia) ltac:(fold (pad_angle a); lra) PJ) as CJ. fold (pad_angle a) in CJ. specialize (CJ ltac:(unfold two_pi in *; lra)).
  fold (fsub (pa_rMax a) (pa_rMin a)) in CI. fold (fsub (pa_phiMax a) (pa_phiMin a)) in CJ. unfold fpa_r, fpa_phi. fold (row_height a) (pad_angle a). rewrite !plus_IZR. split; lra.
Qed.
