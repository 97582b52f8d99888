From Coq Require Import ZArith Reals Lia Lra Psatz List Bool.
From Flocq Require Import Core.
From Verif Require Import Base RBase DiskBase NumModel NumSpec FpModel FpProofs DiskSpec DiskProofs FpsModel FpZpModel FpZpProofs FpFpaModel FpFpaProofs FpFpsModel FpFpsSpec.
Import ListNotations.
Open Scope R_scope.

Lemma ltb_no x y : y <= x -> Rltb x y = false. Proof. intros. unfold Rltb. destruct (Rlt_dec x y); [lra|reflexivity]. Qed.
Lemma ltb_yes x y : x < y -> Rltb x y = true. Proof. intros. unfold Rltb. destruct (Rlt_dec x y); [reflexivity|lra]. Qed.
Lemma leb_yes x y : x <= y -> Rleb x y = true. Proof. intros. unfold Rleb. destruct (Rle_dec x y); [reflexivity|lra]. Qed.

(** ** the rows *)
Lemma rows_at : forall k i rMin h phi w g rows, fps_rows_d k i rMin h phi w g = Ok rows -> List.length rows = k /\
  forall m, (m < k)%nat -> exists np, let rc := fadd (fadd rMin (fmul (IZR (i + Z.of_nat m)) h)) (fmul (1 / 2) h) in
    nth_error rows m = Some (mkF np rc (fdiv phi (IZR np))) /\ fadd w g <> 0 /\ Zfloor (fdiv (fmul rc phi) (fadd w g)) = np.
Proof.
  induction k as [|k IH]; intros i rMin h phi w g rows E; cbn [fps_rows_d] in E; [injection E as <-; split; [reflexivity|intros; lia]|].
  unfold Reqb in E. destruct (Req_EM_T (fadd w g) 0) as [Z0|Z0]; [discriminate|]. unfold to_int in E. rewrite Ztrunc_IZR in E. destruct (int_okb _); [|discriminate]. cbn [rbind] in E.
  destruct (fps_rows_d k (i + 1) rMin h phi w g) as [rs| |] eqn:R; try discriminate. cbn [rmap] in E. injection E as <-. destruct (IH _ _ _ _ _ _ _ R) as [L H]. split; [cbn [List.length]; now rewrite L|].
  intros [|m] M; [eexists; cbn zeta; rewrite Z.add_0_r; split; [reflexivity|auto]|]. destruct (H m ltac:(lia)) as (np & E1 & E2). exists np. cbn zeta. replace (i + Z.of_nat (S m))%Z with (i + 1 + Z.of_nat m)%Z by lia. split; [exact E1|exact E2].
Qed.

Record frep (a : fps_args) (l : fps) : Prop := {
  fr_rMin : f_rMin l = fa_rMin a; fr_phi : f_phiMax l = fa_phiMax a; fr_n : (0 <= f_nRow l)%Z;
  fr_h : f_rowHeight l = fdiv (fsub (fa_rMax a) (fa_rMin a)) (IZR (f_nRow l));
  fr_rows : fps_rows_d (Z.to_nat (f_nRow l)) 0 (fa_rMin a) (f_rowHeight l) (fa_phiMax a) (fa_padWidth a) (fa_padGap a) = Ok (f_rows l);
  fr_len : fps_getNRows l = f_nRow l;
  fr_nr : let nr := Ztrunc (fdiv (fsub (fadd (fa_rMax a) (to_double (1 / 100))) (fa_rMin a)) (fa_padHeight a)) in
          f_nRow l = if (nr <? fa_nRow a)%Z then nr else if (0 <? fa_nRow a)%Z then fa_nRow a else nr }.
Lemma no_turn2 fuel phi : - two_pi <= phi <= two_pi -> wrap_two_turns fuel phi = Some phi.
Proof. intros H. unfold wrap_two_turns, wrap. destruct fuel; cbn [loop_up]; rewrite ltb_no by lra; cbn [loop_down]; now rewrite ltb_no by lra. Qed.
Lemma no_turn1 fuel phi : 0 <= phi <= two_pi -> wrap_circle fuel phi = Some phi.
Proof. intros H. unfold wrap_circle, wrap. destruct fuel; cbn [loop_up]; rewrite ltb_no by lra; cbn [loop_down]; now rewrite ltb_no by lra. Qed.
Lemma made_rep a l : ring a -> fps_made_d a l -> frep a l.
Proof.
  intros (R1 & R2 & _) (fuel & E). unfold new_fps_d in E. destruct (_ || _)%bool; [discriminate|]. rewrite no_turn2 in E by (unfold two_pi in *; lra). injection E as E. unfold to_int in E.
  set (nr := Ztrunc _) in *. destruct (int_okb nr); [|discriminate]. cbn [rbind] in E. set (n := if (nr <? fa_nRow a)%Z then nr else if (0 <? fa_nRow a)%Z then fa_nRow a else nr) in *.
  destruct (Z.ltb_spec n 0) as [N|N]; [discriminate|]. destruct (fps_rows_d _ _ _ _ _ _ _) as [rows| |] eqn:ER; try discriminate. cbn [rmap] in E. injection E as <-.
  split; cbn; try reflexivity; auto. unfold fps_getNRows. cbn [f_rows]. rewrite (proj1 (rows_at _ _ _ _ _ _ _ _ ER)). lia.
Qed.
Lemma row_has_inv a l i np : frep a l -> (fps_getNRows l <= 65536)%Z -> (0 <= i < 65536)%Z -> (0 < np)%Z -> row_has l i np ->
  (i < f_nRow l)%Z /\ exists row, nthZ (f_rows l) i = Some row /\ f_NPad row = np.
Proof.
  intros F NR I P H. pose proof (fr_len a l F) as FL. unfold fps_getNRows in *. unfold row_has, fps_getPadIndex in H.
  assert (U : uint32 i = i) by (unfold uint32; apply Z.mod_small; lia). rewrite U in H.
  destruct (H 0%Z ltac:(lia)) as [_ H0]. destruct (H0 P) as (p0 & E0). destruct (Z.ltb_spec ((Z.of_nat (List.length (f_rows l)) - 1) mod 18446744073709551616) i) as [C|C]; [discriminate|].
  destruct (sub (f_rows l) i) as [row| |] eqn:S; try discriminate. unfold sub in S. destruct (nthZ (f_rows l) i) as [row'|] eqn:N; [|discriminate]. injection S as ->.
  split. { unfold nthZ in N. destruct (Z.ltb_spec i 0); [lia|]. assert (Z.to_nat i < List.length (f_rows l))%nat by (apply nth_error_Some; congruence). lia. }
  exists row. split; [reflexivity|]. cbn [rbind] in *.
  destruct (H np ltac:(lia)) as [H1 _]. destruct (H (np - 1)%Z ltac:(lia)) as [_ H2]. destruct (H2 ltac:(lia)) as (p2 & E2).
  destruct (Z.ltb_spec (f_NPad row - 1) (np - 1)); [discriminate|]. destruct (Z.ltb_spec (f_NPad row - 1) np); [lia|]. exfalso. assert (np < np)%Z by (apply H1; eauto). lia.
Qed.
Lemma row_values a l i row : frep a l -> (0 <= i)%Z -> nthZ (f_rows l) i = Some row ->
  let rc := fadd (fadd (fa_rMin a) (fmul (IZR i) (f_rowHeight l))) (fmul (1 / 2) (f_rowHeight l)) in
  f_RCenter row = rc /\ f_PhiPad row = fdiv (fa_phiMax a) (IZR (f_NPad row)) /\ fadd (fa_padWidth a) (fa_padGap a) <> 0 /\
  Zfloor (fdiv (fmul rc (fa_phiMax a)) (fadd (fa_padWidth a) (fa_padGap a))) = f_NPad row.
Proof.
  intros F I N rc. unfold nthZ in N. destruct (Z.ltb_spec i 0); [lia|]. destruct (rows_at _ _ _ _ _ _ _ _ (fr_rows a l F)) as [L HH].
  assert (M : (Z.to_nat i < Z.to_nat (f_nRow l))%nat) by (rewrite <- L; apply nth_error_Some; congruence). destruct (HH _ M) as (np & E & D & Z1). replace (0 + Z.of_nat (Z.to_nat i))%Z with i in * by lia.
  rewrite E in N. injection N as <-. auto.
Qed.

Lemma near_fps : forall a l i np j r phi fuel, ring a -> fps_made_d a l -> rows_ok a l -> (0 <= i)%Z -> row_has l i np -> (0 <= j < np)%Z -> (np <= 65536)%Z ->
  is_double phi -> / 100000 <= r -> well_inside_fps a l i np j r phi -> (i < 65536)%Z -> fps_getNearestPad_d fuel l r phi = Found (Ok (code i j)).
Proof.
  intros a l i np j r phi fuel RG MD (RO1 & RO2) I0 RH J NP DP R5 (W1 & W2) I1. pose proof (made_rep a l RG MD) as F. destruct RG as (R1 & R2 & R3).
  destruct (row_has_inv a l i np F RO1 ltac:(lia) ltac:(lia) RH) as (IN & row & ER & EN). destruct (row_values a l i row F I0 ER) as (V1 & V2 & _).
  unfold row_h in *. pose proof (fr_len a l F) as FL. rewrite FL in *. set (n := f_nRow l) in *. set (h := (fa_rMax a - fa_rMin a) / IZR n) in *. set (w := fa_phiMax a / IZR np) in *.
  assert (NP1 : 1 <= IZR np <= 65536) by (split; apply IZR_le; lia). assert (J1 : IZR j + 1 <= IZR np) by (rewrite <- plus_IZR; apply IZR_le; lia). assert (J0 : 0 <= IZR j) by (apply IZR_le; lia). assert (I2 : 0 <= IZR i) by (apply IZR_le; lia).
  assert (EW : fa_phiMax a = w * IZR np) by (unfold w; field; lra). assert (HW : / 1000000000 <= w).
  { apply Rmult_le_reg_r with (IZR np); [lra|]. rewrite <- EW. apply Rle_trans with (/ 1000000000 * 65536); [apply Rmult_le_compat_l; lra|lra]. }
  assert (PH : 0 <= phi <= fa_phiMax a). { split; [nra|]. rewrite EW. apply Rle_trans with ((IZR j + 1) * w); [lra|]. rewrite (Rmult_comm w). apply Rmult_le_compat_r; lra. }
  assert (RM : fa_rMin a <= r) by nra.
  assert (E6 : to_double (1 / 1000000) <= / 100000). { destruct (double_rel (1 / 1000000)) as [_ X]; [apply small_d; lra|]. unfold u64 in X. lra. }
  unfold fps_getNearestPad_d. rewrite (Rabs_pos_eq r) by lra. rewrite ltb_no by lra.
  assert (WR : (if Rltb (Rabs (fsub (f_phiMax l) two_pi)) (to_double (1 / 1000000)) then wrap_circle fuel phi else wrap_two_turns fuel phi) = Some phi)
    by (destruct (Rltb _ _); [apply no_turn1|apply no_turn2]; unfold two_pi in *; lra). rewrite WR.
  rewrite (fr_phi a l F), (fr_rMin a l F), (fr_h a l F). fold n. rewrite ltb_yes, !leb_yes by lra. cbn [andb]. f_equal. rewrite ltb_no by lra.
  pose proof (cell_index (fa_rMax a - fa_rMin a) n (r - fa_rMin a) i ltac:(lia) ltac:(fold h; lra) ltac:(lia) ltac:(fold h; lra)) as CI. fold (fsub r (fa_rMin a)) (fsub (fa_rMax a) (fa_rMin a)) in CI.
  rewrite (floor_at i _ CI). unfold to_int at 1. rewrite Ztrunc_IZR, int_small by lia. cbn [rbind]. destruct (Z.leb_spec n i); [lia|]. unfold sub at 1. rewrite ER. cbn [rbind]. rewrite EN. destruct (Z.eqb_spec np 0); [lia|].
  pose proof (cell_index (fa_phiMax a) np phi j ltac:(lia) ltac:(fold w; lra) J ltac:(fold w; lra)) as CJ. rewrite (rnd_id _ DP), (rnd_id _ R3) in CJ. rewrite V2, EN.
  rewrite (floor_at j _ CJ). unfold to_int. rewrite Ztrunc_IZR, int_small by lia. cbn [rbind]. destruct (Z.leb_spec np j); [lia|].
  unfold fps_getPadIndex. assert (U : uint32 i = i) by (unfold uint32; apply Z.mod_small; lia). rewrite U. unfold fps_getNRows in FL. rewrite FL. rewrite Z.mod_small by lia. destruct (Z.ltb_spec (n - 1) i); [lia|].
  unfold sub. rewrite ER. cbn [rbind]. rewrite EN. destruct (Z.ltb_spec (np - 1) j); [lia|]. f_equal. apply pack_code; lia.
Qed.

(** ** how many pads fit *)
Lemma rel_mult x x' y y' k m : 0 <= x -> 0 <= y -> 0 <= k <= 10 -> 0 <= m <= 10 -> (1 - k * u64) * x <= x' <= (1 + k * u64) * x -> (1 - m * u64) * y <= y' <= (1 + m * u64) * y ->
  (1 - (k + m) * u64) * (x * y) <= x' * y' <= (1 + (k + m + 1) * u64) * (x * y).
Proof.
  intros X Y K M A B. assert (XY : 0 <= x * y) by nra. assert (U : 0 < u64 <= / 1000000000000000) by (unfold u64; lra). assert (KM : 0 <= k * m <= 100) by nra.
  assert (KU : 0 <= k * u64 <= / 100000000000000) by nra. assert (MU : 0 <= m * u64 <= / 100000000000000) by nra. assert (X0 : 0 <= (1 - k * u64) * x) by nra. assert (Y0 : 0 <= (1 - m * u64) * y) by nra. split.
  - apply Rle_trans with (((1 - k * u64) * x) * ((1 - m * u64) * y)); [|apply Rmult_le_compat; lra]. replace ((1 - k * u64) * x * ((1 - m * u64) * y)) with ((1 - (k + m) * u64 + (k * u64) * (m * u64)) * (x * y)) by ring. apply Rmult_le_compat_r; nra.
  - apply Rle_trans with (((1 + k * u64) * x) * ((1 + m * u64) * y)); [apply Rmult_le_compat; lra|]. replace ((1 + k * u64) * x * ((1 + m * u64) * y)) with ((1 + (k + m) * u64 + k * (m * u64) * u64) * (x * y)) by ring. apply Rmult_le_compat_r; [lra|].
    assert (k * (m * u64) <= 1) by nra. nra.
Qed.
Lemma rel_round x x' k : / 100000000000000000 <= x -> 0 <= k <= 20 -> (1 - k * u64) * x <= x' <= (1 + k * u64) * x -> (1 - (k + 2) * u64) * x <= to_double x' <= (1 + (k + 2) * u64) * x.
Proof.
  intros X K A. assert (U : 0 < u64 <= / 1000000000000000) by (unfold u64; lra). assert (KU : 0 <= k * u64 <= / 10000000000000) by nra. assert (X2 : / 1000000000000000000 <= x') by nra.
  destruct (double_rel x' (small_d x' X2)) as [C D]. assert (KX : 0 <= k * u64 * x <= / 10000000000000 * x) by nra. split; [|nra].
  apply Rle_trans with ((1 - u64) * ((1 - k * u64) * x)); nra.
Qed.
Lemma centre_rel a l i : ring a -> frep a l -> rows_ok a l -> (0 <= i < f_nRow l)%Z -> let h := row_h a l in
  (1 - 12 * u64) * (fa_rMin a + (IZR i + 1 / 2) * h) <= fadd (fadd (fa_rMin a) (fmul (IZR i) (f_rowHeight l))) (fmul (1 / 2) (f_rowHeight l)) <= (1 + 12 * u64) * (fa_rMin a + (IZR i + 1 / 2) * h).
Proof.
  intros (R1 & _) F (RO1 & RO2) I. cbn zeta. unfold row_h in *. pose proof (fr_len a l F) as FL. rewrite FL in *. rewrite (fr_h a l F). set (n := f_nRow l) in *. set (h := (fa_rMax a - fa_rMin a) / IZR n) in *.
  assert (N : (0 < n <= 65536)%Z) by lia. destruct (cell_size (fa_rMax a - fa_rMin a) n N ltac:(fold h; lra)) as [S1 S2]. fold h in S1, S2. fold (fsub (fa_rMax a) (fa_rMin a)) in S1, S2. set (hd := fdiv (fsub (fa_rMax a) (fa_rMin a)) (IZR n)) in *.
  assert (U : 0 < u64 <= / 1000000000000000) by (unfold u64; lra). assert (I0 : 0 <= IZR i) by (apply IZR_le; lia).
  assert (H2 : (1 - 5 * u64) * (1 / 2 * h) <= fmul (1 / 2) hd <= (1 + 5 * u64) * (1 / 2 * h)) by (pose proof (rel_round (1 / 2 * h) (1 / 2 * hd) 3 ltac:(lra) ltac:(lra) ltac:(lra)); unfold fmul; lra).
  assert (H1 : (1 - 5 * u64) * (IZR i * h) <= fmul (IZR i) hd <= (1 + 5 * u64) * (IZR i * h)).
  { destruct (Z.eq_dec i 0) as [->|D]; [unfold fmul; rewrite !Rmult_0_l, double_0'; lra|]. assert (1 <= IZR i) by (apply IZR_le; lia). assert (X : (1 - (3 + 2) * u64) * (IZR i * h) <= fmul (IZR i) hd <= (1 + (3 + 2) * u64) * (IZR i * h)); [|lra]. apply (rel_round _ _ 3); [nra|lra|]. split; [replace ((1 - 3 * u64) * (IZR i * h)) with (IZR i * ((1 - 3 * u64) * h)) by ring|replace ((1 + 3 * u64) * (IZR i * h)) with (IZR i * ((1 + 3 * u64) * h)) by ring]; apply Rmult_le_compat_l; lra. }
  set (p := fmul (IZR i) hd) in *. set (q := fmul (1 / 2) hd) in *. set (s := IZR i * h) in *. assert (S0 : 0 <= s) by (unfold s; nra). assert (ES : IZR i * h = s) by reflexivity. set (m := fa_rMin a) in *. clearbody p q s m hd.
  assert (ST : (1 - 7 * u64) * (m + s) - ty <= fadd m p <= (1 + 7 * u64) * (m + s) + ty).
  { assert (P0 : 0 <= p) by nra. destruct (fadd_gen m p ltac:(lra)) as [A B]. assert (0 <= u64 * m <= m) by nra. assert (0 <= u64 * s <= / 1000000000000000 * s) by nra. assert (0 <= u64 * (u64 * s) <= u64 * s) by nra. split; nra. }
  assert (TY : 0 <= ty <= u64 * / 100000) by (unfold ty, u64; lra).
  replace (m + (IZR i + 1 / 2) * h) with (m + s + 1 / 2 * h) by (rewrite <- ES; ring).
  assert (X : (1 - (10 + 2) * u64) * (m + s + 1 / 2 * h) <= fadd (fadd m p) q <= (1 + (10 + 2) * u64) * (m + s + 1 / 2 * h)); [|lra]. apply (rel_round _ _ 10); [lra|lra|].
  assert (0 <= u64 * (m + s)) by nra. assert (u64 * / 1000 <= u64 * h) by (apply Rmult_le_compat_l; lra). split; lra.
Qed.
Lemma pads_fit a l i np : ring a -> fps_made_d a l -> rows_ok a l -> / 1000000 <= fa_padWidth a + fa_padGap a <= 1000000 -> (0 <= i)%Z -> (0 < np)%Z -> row_has l i np -> (i < 65536)%Z ->
  let arc := (fa_rMin a + (IZR i + 1 / 2) * row_h a l) * fa_phiMax a in let pitch := fa_padWidth a + fa_padGap a in
  IZR np * pitch <= arc * (1 + / 100000000000000) /\ arc * (1 - / 100000000000000) < (IZR np + 1) * pitch.
Proof.
  intros RG MD RO P I NP RH I1 arc pitch. pose proof (made_rep a l RG MD) as F. destruct (row_has_inv a l i np F (proj1 RO) ltac:(lia) NP RH) as (IN & row & ER & EN). destruct (row_values a l i row F I ER) as (_ & _ & _ & V). rewrite EN in V.
  pose proof (centre_rel a l i RG F RO ltac:(lia)) as C. cbn zeta in C. set (rc := fadd (fadd _ _) _) in *. set (e := fa_rMin a + (IZR i + 1 / 2) * row_h a l) in *. destruct RG as (R1 & R2 & R3). destruct RO as [_ RO].
  assert (U : 0 < u64 <= / 1000000000000000) by (unfold u64; lra). assert (I0 : 0 <= IZR i) by (apply IZR_le; lia). assert (E0 : / 2000 <= e) by (unfold e; nra). clearbody e rc. assert (A0 : / 2000000 <= arc) by (unfold arc; nra).
  assert (A1 : (1 - 14 * u64) * arc <= fmul rc (fa_phiMax a) <= (1 + 14 * u64) * arc).
  { assert (X : (1 - (12 + 2) * u64) * arc <= fmul rc (fa_phiMax a) <= (1 + (12 + 2) * u64) * arc); [|lra]. apply (rel_round _ _ 12); [lra|lra|]. unfold arc. split; nra. }
  assert (B1 : (1 - u64) * pitch <= fadd (fa_padWidth a) (fa_padGap a) <= (1 + u64) * pitch) by (apply double_rel, small_d; unfold pitch; lra).
  set (ad := fmul rc (fa_phiMax a)) in *. set (pd := fadd (fa_padWidth a) (fa_padGap a)) in *. fold pitch in P. clearbody ad pd arc pitch.
  assert (PD : / 2000000 <= pd <= 2000000) by nra. assert (Q0 : ad / pd * pd = ad) by (field; lra). set (q := ad / pd) in *. assert (AD : / 4000000 <= ad) by nra.
  assert (Q1 : / 100000000000000000 <= q). { apply Rmult_le_reg_r with pd; [lra|]. rewrite Q0. nra. }
  destruct (double_rel q (small_d q ltac:(lra))) as [D1 D2]. fold (fdiv ad pd) in *. change (to_double q) with (fdiv ad pd) in *. set (qd := fdiv ad pd) in *. pose proof (Zfloor_lb qd) as L1. pose proof (Zfloor_ub qd) as L2. rewrite V in L1, L2. clearbody qd q.
  assert (NP1 : 1 <= IZR np) by (apply IZR_le; lia). split.
  - assert (IZR np * pd <= (1 + u64) * ad). { rewrite <- Q0. replace ((1 + u64) * (q * pd)) with ((1 + u64) * q * pd) by ring. apply Rmult_le_compat_r; lra. }
    assert (IZR np * ((1 - u64) * pitch) <= IZR np * pd) by (apply Rmult_le_compat_l; lra). set (Y := IZR np * pitch) in *. replace (IZR np * ((1 - u64) * pitch)) with ((1 - u64) * Y) in * by (unfold Y; ring).
    assert ((1 + u64) * ad <= (1 + u64) * ((1 + 14 * u64) * arc)) by (apply Rmult_le_compat_l; lra). assert (EY : (1 - u64) * Y <= (1 + u64) * ((1 + 14 * u64) * arc)) by lra. clearbody Y.
    apply Rmult_le_reg_l with (1 - u64); [lra|]. apply Rle_trans with (1 := EY). replace ((1 + u64) * ((1 + 14 * u64) * arc)) with (arc * ((1 + u64) * (1 + 14 * u64))) by ring. replace ((1 - u64) * (arc * (1 + / 100000000000000))) with (arc * ((1 - u64) * (1 + / 100000000000000))) by ring. apply Rmult_le_compat_l; [lra|unfold u64; lra].
  - assert ((1 - u64) * ad < (IZR np + 1) * pd). { rewrite <- Q0. replace ((1 - u64) * (q * pd)) with ((1 - u64) * q * pd) by ring. apply Rmult_lt_compat_r; lra. }
    assert ((IZR np + 1) * pd <= (IZR np + 1) * ((1 + u64) * pitch)) by (apply Rmult_le_compat_l; lra). set (Y := (IZR np + 1) * pitch) in *. replace ((IZR np + 1) * ((1 + u64) * pitch)) with ((1 + u64) * Y) in * by (unfold Y; ring).
    assert ((1 - u64) * ((1 - 14 * u64) * arc) <= (1 - u64) * ad) by (apply Rmult_le_compat_l; lra). assert (EY : (1 - u64) * ((1 - 14 * u64) * arc) < (1 + u64) * Y) by lra. clearbody Y.
    apply Rmult_lt_reg_l with (1 + u64); [lra|]. apply Rle_lt_trans with (2 := EY). replace ((1 - u64) * ((1 - 14 * u64) * arc)) with (arc * ((1 - u64) * (1 - 14 * u64))) by ring. replace ((1 + u64) * (arc * (1 - / 100000000000000))) with (arc * ((1 + u64) * (1 - / 100000000000000))) by ring. apply Rmult_le_compat_l; [lra|unfold u64; lra].
Qed.


(** ** the reported centres *)
Lemma centre_fps : forall a l i np j fuel, ring a -> fps_made_d a l -> rows_ok a l -> (0 <= i < 65536)%Z -> row_has l i np -> (0 <= j < np)%Z -> (np <= 65536)%Z ->
  fa_rMax a <= 1000000000000 * row_h a l -> exists c, fps_getPadCenter_d l (code i j) = Ok c /\ well_inside_fps a l i np j (fst c) (snd c) /\ fps_getNearestPad_d fuel l (fst c) (snd c) = Found (Ok (code i j)).
Proof.
  intros a l i np j fuel RG MD RO I RH J NP B. pose proof (made_rep a l RG MD) as F. pose proof (fr_len a l F) as FL.
  destruct (row_has_inv a l i np F (proj1 RO) ltac:(lia) ltac:(lia) RH) as (IN & row & ER & EN). destruct (row_values a l i row F ltac:(lia) ER) as (V1 & V2 & _).
  pose proof (centre_rel a l i RG F RO ltac:(lia)) as C. cbn zeta in C. rewrite <- V1 in C.
  assert (W : well_inside_fps a l i np j (f_RCenter row) (fmul (fadd (IZR j) (1 / 2)) (f_PhiPad row))).
  { destruct RG as (R1 & R2 & R3). destruct RO as (RO1 & RO2). split.
    - set (h := row_h a l) in *. assert (U : 0 < u64 <= / 1000000000000000) by (unfold u64; lra). assert (I0 : 0 <= IZR i) by (apply IZR_le; lia).
      assert (EM : fa_rMin a + (IZR i + 1 / 2) * h <= fa_rMax a).
      { assert (EH : fa_rMax a = fa_rMin a + IZR (f_nRow l) * h) by (unfold h, row_h; rewrite FL; field; apply not_0_IZR; lia). rewrite EH. apply Rplus_le_compat_l, Rmult_le_compat_r; [lra|].
        assert (IZR i + 1 <= IZR (f_nRow l)) by (rewrite <- plus_IZR; apply IZR_le; lia). lra. }
      set (e := fa_rMin a + (IZR i + 1 / 2) * h) in *. assert (E1 : 0 <= 12 * u64 * e <= h / 10) by (split; [unfold e; apply Rmult_le_pos; [lra|nra]|]; apply Rle_trans with (12 * u64 * (1000000000000 * h)); [apply Rmult_le_compat_l; lra|]; unfold u64; lra).
      replace (fa_rMin a + IZR i * h) with (e - h / 2) by (unfold e; lra). replace (fa_rMin a + (IZR i + 1) * h) with (e + h / 2) by (unfold e; lra). lra.
    - set (w := fa_phiMax a / IZR np) in *. assert (NP1 : 1 <= IZR np <= 65536) by (split; apply IZR_le; lia). assert (EW : fa_phiMax a = w * IZR np) by (unfold w; field; lra).
      assert (HW : / 1000000000 <= w). { apply Rmult_le_reg_r with (IZR np); [lra|]. rewrite <- EW. apply Rle_trans with (/ 1000000000 * 65536); [apply Rmult_le_compat_l; lra|lra]. }
      pose proof (centre_coord (fa_phiMax a) np j 0 ltac:(lia) ltac:(fold w; lra) J) as CC. fold w in CC. rewrite Rabs_R0, (rnd_id _ R3) in CC. rewrite V2, EN. set (p := fmul (fadd (IZR j) (1 / 2)) (fdiv (fa_phiMax a) (IZR np))) in *.
      assert (EP : fadd p 0 = p) by (unfold fadd; rewrite Rplus_0_r; apply rnd_id, rnd_double). rewrite EP in CC. assert (X : 0 + fa_phiMax a <= 1000000000000 * w) by (rewrite EW; nra). specialize (CC X). lra. }
  exists (f_RCenter row, fmul (fadd (IZR j) (1 / 2)) (f_PhiPad row)). split; [|split; [exact W|]].
  - unfold fps_getPadCenter_d. rewrite code_row, code_pad by lia. unfold sub. rewrite ER. cbn [rbind]. rewrite EN. destruct (Z.eqb_spec np 0); [lia|]. reflexivity.
  - cbn [fst snd]. apply (near_fps a l i np j); auto; try lia; [apply rnd_double|]. destruct RG as (R1 & _). destruct RO as (_ & RO2). assert (I0 : 0 <= IZR i) by (apply IZR_le; lia). assert (U : 0 < u64 <= / 1000000000000000) by (unfold u64; lra).
    set (h := row_h a l) in *. set (e := fa_rMin a + (IZR i + 1 / 2) * h) in *. assert (/ 2000 <= e) by (unfold e; nra). nra.
Qed.

(** ** the number of rows *)
Lemma rows_trunc : forall rMin rMax ph k, 0 <= rMin -> rMax <= 1000000000 -> / 50 <= ph -> (1 <= k)%Z -> Rabs (rMax - rMin - IZR k * ph) <= / 1000 ->
  Ztrunc (fdiv (fsub (fadd rMax (to_double (1 / 100))) rMin) ph) = k.
Proof.
  intros rMin rMax ph k R0 R1 P K A. apply Rabs_le_inv in A. assert (K1 : 1 <= IZR k) by (apply IZR_le; lia). assert (KP : / 50 <= IZR k * ph) by nra. assert (U : 0 < u64 <= / 1000000000000000) by (unfold u64; lra).
  destruct (double_rel (1 / 100)) as [C1 C2]; [apply small_d; lra|]. set (c := to_double (1 / 100)) in *. assert (CC : / 101 <= c <= / 99) by nra. clearbody c.
  destruct (double_rel (rMax + c)) as [S1 S2]; [apply small_d; lra|]. fold (fadd rMax c) in S1, S2. set (s := fadd rMax c) in *. assert (SS : rMax + c - / 100000 <= s <= rMax + c + / 100000) by nra. clearbody s.
  destruct (double_rel (s - rMin)) as [T1 T2]; [apply small_d; lra|]. fold (fsub s rMin) in T1, T2. set (t := fsub s rMin) in *. assert (TT : s - rMin - / 100000 <= t <= s - rMin + / 100000) by nra. clearbody t.
  assert (QE : t / ph * ph = t) by (field; lra). set (q := t / ph) in *. assert (Q1 : 1 <= q) by (apply Rmult_le_reg_r with ph; [lra|]; rewrite QE; nra).
  destruct (double_rel q) as [D1 D2]; [apply small_d; lra|]. change (to_double q) with (fdiv t ph) in D1, D2. set (qd := fdiv t ph) in *. clearbody qd q. apply trunc_at; [lia|].
  assert (UT : 0 <= u64 * t <= / 100000) by nra. split.
  - apply Rmult_le_reg_r with ph; [lra|]. apply Rle_trans with ((1 - u64) * q * ph); [|apply Rmult_le_compat_r; lra]. replace ((1 - u64) * q * ph) with ((1 - u64) * (q * ph)) by ring. rewrite QE. lra.
  - apply Rmult_lt_reg_r with ph; [lra|]. apply Rle_lt_trans with ((1 + u64) * q * ph); [apply Rmult_le_compat_r; lra|]. replace ((1 + u64) * q * ph) with ((1 + u64) * (q * ph)) by ring. rewrite QE. lra.
Qed.
Lemma rows_count : forall a l k, ring a -> fps_made_d a l -> fa_rMax a <= 1000000000 -> / 50 <= fa_padHeight a -> (1 <= k)%Z -> Rabs (fa_rMax a - fa_rMin a - IZR k * fa_padHeight a) <= / 1000 ->
  fps_getNRows l = if ((0 <? fa_nRow a) && (fa_nRow a <=? k))%Z%bool then fa_nRow a else k.
Proof.
  intros a l k RG MD R1 P K A. pose proof (made_rep a l RG MD) as F. rewrite (fr_len a l F), (fr_nr a l F). cbn zeta. rewrite (rows_trunc _ _ _ k) by (auto; destruct RG; lra).
  destruct (Z.ltb_spec k (fa_nRow a)), (Z.ltb_spec 0 (fa_nRow a)), (Z.leb_spec (fa_nRow a) k); cbn [andb]; lia || reflexivity.
Qed.
