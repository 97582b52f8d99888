(** C99: rows of a versatile disk layout, in the arithmetic of the machine. *)
From Coq Require Import ZArith Reals Lia Lra Psatz List Bool.
From Flocq Require Import Core.
From Verif Require Import Base RBase DiskBase NumSpec NumModel NumProofs FpModel FpProofs FpRectProofs2 FpRectCases DiskSpec DiskProofs VdModel FpFpaModel FpFpaProofs FpZpProofs FpFpsModel FpFpsProofs FpVdModel FpVdSpec FpVdProofs.
Import ListNotations.
Open Scope R_scope.

(** For a point a millionth of the pad's size inside a pad, getNearestPad returns that pad, however accurate the cosine. *)
Theorem C99_nearest_inside : forall rMin a l i j r phi cosd fuel, vd_limits rMin a -> vd_made_d rMin a l -> (0 <= i < va_repeat a)%Z -> (0 <= j < va_nPads a)%Z ->
  is_double r -> is_double phi -> phi <= two_pi -> well_inside_vd rMin a i j r phi -> vd_getNearestPad_d cosd fuel l r phi = Found (Ok (code i j)).
Proof. exact near_vd. Qed.
Print Assumptions C99_nearest_inside.

(** The centre that getPadCenter reports is such a point, and the pad is found again. *)
Theorem C99_centre_found : forall rMin a l i j cosd fuel, vd_limits rMin a -> vd_made_d rMin a l -> (0 <= i < va_repeat a)%Z -> (0 <= j < va_nPads a)%Z ->
  exists c, vd_getPadCenter_d l (code i j) = Ok c /\ well_inside_vd rMin a i j (fst c) (snd c) /\ vd_getNearestPad_d cosd fuel l (fst c) (snd c) = Found (Ok (code i j)).
Proof. exact centre_vd. Qed.
Print Assumptions C99_centre_found.

(** ** rows that are too thin for their radius *)
Ltac dbl m e := apply (double_frac m e); [unfold powerRZ; simpl; lra|reflexivity|lia].
Definition big : R := 4503599627370496.
Lemma big_double : is_double big. Proof. unfold big. dbl 4503599627370496%Z 0%Z. Qed.
Lemma big_stays x : 0 <= x < / 2 -> fadd big x = big.
Proof.
  intros X. assert (V : Valid_exp (FLT_exp (-1074) 53)) by (apply FLT_exp_valid; red; lia). assert (F1 : generic_format radix2 (FLT_exp (-1074) 53) big) by (apply double_format, big_double).
  assert (SU : succ radix2 (FLT_exp (-1074) 53) big = big + 1).
  { unfold big in *. rewrite succ_eq_pos by lra. rewrite ulp_neq_0 by lra. unfold cexp. assert (MG : mag radix2 4503599627370496 = 53%Z :> Z).
    { apply mag_unique. rewrite Rabs_pos_eq by lra. change (bpow radix2 (53 - 1)) with 4503599627370496. change (bpow radix2 53) with 9007199254740992. lra. }
    rewrite MG. change (FLT_exp (-1074) 53 53) with 0%Z. change (bpow radix2 0) with 1. lra. }
  apply Rle_antisym; [|apply (rnd_lo big); [apply big_double|lra]]. unfold fadd, to_double. apply round_N_le_midp; [exact V|exact F1|]. rewrite SU. lra.
Qed.
Definition thin_rows : vd_args := mkVdArgs 1 1 (1 / 4) 0 1 (1 / 4) 2.
Definition thin_row (n : Z) : vrow :=
  mkV n 1 1 (1 / big) 1 (1 / big) (1 / 4) (1 / 4) 0 0 big (1 / big) big 0.
Definition thin_vd : vd := mkVd 2 [thin_row 0; thin_row 1] big (fadd big (1 / 2)) 0 (1 / big) [None; None].
Lemma pitch_exact : fdiv 1 big = 1 / big. Proof. apply rnd_id. unfold big. dbl 1%Z (-52)%Z. Qed.
Lemma pitch_double : is_double (1 / big). Proof. unfold big. dbl 1%Z (-52)%Z. Qed.
Lemma small_pitch : 0 < 1 / big < / 1000. Proof. unfold big. lra. Qed.
Lemma eighth : fmul (1 / 4) (1 / 2) = 1 / 8. Proof. unfold fmul. rewrite rnd_id by dbl 1%Z (-3)%Z. lra. Qed.
Lemma pitch_once : fmul (1 / big) 1 = 1 / big. Proof. unfold fmul. rewrite Rmult_1_r. apply rnd_id, pitch_double. Qed.
Lemma add_zero x : is_double x -> fadd 0 x = x. Proof. intros. unfold fadd. rewrite Rplus_0_l. now apply rnd_id. Qed.
Lemma thin_new n : new_vrow_d n 1 big 1 (1 / 4) 1 (1 / 4) 0 = Ok (thin_row n).
Proof.
  pose proof small_pitch. unfold new_vrow_d. assert (B0 : Reqb big 0 = false) by (unfold Reqb; destruct (Req_EM_T big 0); [unfold big in *; lra|reflexivity]). rewrite B0. rewrite zero_div. rewrite (ltb_no 0 (- two_pi)) by (unfold two_pi; lra). rewrite (leb_no two_pi 0) by (unfold two_pi; lra). rewrite zero_div, pitch_exact.
  rewrite pitch_once, ltb_no by (unfold two_pi; lra). rewrite (add_zero _ pitch_double), eighth, big_stays by lra. reflexivity.
Qed.
Lemma thin_vd_made : vd_made_d big thin_rows thin_vd.
Proof.
  pose proof small_pitch. unfold vd_made_d, vd_addRow_d, thin_rows. cbn [va_nPads va_pitch va_height va_offset va_padWidth va_padHeight va_repeat]. change (1 <=? 0)%Z with false. change (2 <=? 0)%Z with false. cbv iota.
  rewrite (ltb_no 1 0), (ltb_no 1 1), (leb_no (1 / 4) 0) by lra. assert (X1 : Reqb 1 0 = false) by (unfold Reqb; destruct (Req_EM_T 1 0); [lra|reflexivity]). assert (X2 : Reqb (1 / 4) 0 = false) by (unfold Reqb; destruct (Req_EM_T (1 / 4) 0); [lra|reflexivity]). rewrite X1, X2.
  cbn [new_vd v_e1 v_nPad v_rows v_e0 v_e2 v_e3 v_padIndices]. rewrite eighth, big_stays by lra. change (Z.to_nat 2) with 2%nat. cbn [vd_push_d v_rows List.length app]. rewrite thin_new. rewrite big_stays by lra. cbn [v_rows List.length app v_nPad v_e0 v_e1 v_e2 v_e3 v_padIndices]. rewrite thin_new. cbn [v_rows app rev].
  unfold vd_extent_d. cbn [v_rows app List.length Nat.eqb orb thin_row v_offset v_phiMax v_e2 v_e3 v_e1 v_e0 v_padIndices v_nPad]. rewrite (ltb_no 0 0), (ltb_yes 0 (1 / big)) by lra.
  assert (X3 : fsub (1 / big) 0 = 1 / big) by (unfold fsub; rewrite Rminus_0_r; apply rnd_id, pitch_double). rewrite X3, ltb_no by (unfold two_pi; lra). cbn [fst snd]. unfold thin_vd. f_equal.
  assert (X4 : fmul 2 (1 / 4) = 1 / 2) by (unfold fmul; rewrite rnd_id by dbl 1%Z (-1)%Z; lra). now rewrite X4.
Qed.
Lemma thin_dist cosd n phi : 0 <= phi <= 1 / big -> vrow_distance_d cosd (thin_row n) big phi = Some 0.
Proof.
  intros P. pose proof small_pitch. unfold vrow_distance_d, row_phi_max_d. cbn [thin_row v_offset v_nPads v_padPitch]. rewrite Rmult_comm || idtac. unfold fmul at 1. rewrite Rmult_1_l, (rnd_id _ pitch_double), (add_zero _ pitch_double). rewrite !leb_yes; [reflexivity|..]; try lra.
  - unfold r_hi. cbn [thin_row v_rCentre v_rowHeight]. rewrite eighth, big_stays by lra. lra.
  - unfold r_lo. cbn [thin_row v_rCentre v_rowHeight]. rewrite eighth. apply (rnd_up big); [apply big_double|lra].
Qed.
(** With rows that are thin in comparison with their radius this fails, for a layout within all other limits. *)
Theorem C99_centre_found_refuted : exists rMin a l i j c p, is_double rMin /\ is_double (va_height a) /\ is_double (va_pitch a) /\ va_offset a = 0 /\ 0 <= rMin /\ / 1000 <= va_height a <= 1000000 /\ / 1000 <= va_pitch a /\
  vd_made_d rMin a l /\ (0 <= i < va_repeat a)%Z /\ (0 <= j < va_nPads a)%Z /\ vd_getPadCenter_d l (code i j) = Ok c /\
  (forall cosd fuel, vd_getNearestPad_d cosd fuel l (fst c) (snd c) = Found (Ok p)) /\ p <> code i j.
Proof.
  pose proof small_pitch as SP. exists big, thin_rows, thin_vd, 1%Z, 0%Z, (big, 1 / 2 * (1 / big)), (code 0 0). assert (HD : is_double (1 / 2 * (1 / big))) by (unfold big; dbl 1%Z (-53)%Z).
  split; [apply big_double|]. split; [cbn; dbl 1%Z (-2)%Z|]. split; [cbn; dbl 1%Z 0%Z|]. split; [reflexivity|]. split; [unfold big; lra|]. split; [cbn; lra|]. split; [cbn; lra|]. split; [exact thin_vd_made|]. split; [cbn; lia|]. split; [cbn; lia|].
  split; [|split; [|discriminate]].
  - unfold vd_getPadCenter_d, vd_row_of, vd_getRowNumber. rewrite code_row, code_pad by lia. change (sub (v_rows thin_vd) 1) with (Ok (thin_row 1)). cbn [thin_vd v_rows List.length Z.of_nat]. change ((1 <? 0) || (Z.pos (Pos.of_succ_nat 1) - 1 <? 1))%Z%bool with false. cbv iota. cbn [rbind rmap]. change (sub [thin_row 0; thin_row 1] 1) with (Ok (thin_row 1)). cbn [rmap thin_row v_rCentre v_offset v_padPitch].
    rewrite half_at by lia. replace (0 + 1 / 2) with (1 / 2) by lra. unfold fmul. rewrite (rnd_id _ HD), (add_zero _ HD). reflexivity.
  - intros cosd fuel. cbn [fst snd]. unfold vd_getNearestPad_d. rewrite no_turn1 by (unfold two_pi; lra). f_equal. cbn [thin_vd v_rows]. cbn [vd_scan_d]. rewrite (thin_dist cosd 0) by lra.
    assert (NP : vrow_getNearestPad_d cosd (thin_row 0) big (1 / 2 * (1 / big)) = Ok (code 0 0)).
    { unfold vrow_getNearestPad_d, row_phi_max_d. cbn [thin_row v_offset v_nPads v_padPitch v_rowNumber]. unfold fmul at 1. rewrite Rmult_1_l, (rnd_id _ pitch_double), (add_zero _ pitch_double). rewrite ltb_yes by lra. unfold Reqb. destruct (Req_EM_T (1 / big) 0); [lra|].
      assert (X : fdiv (fsub (1 / 2 * (1 / big)) 0) (1 / big) = 1 / 2). { unfold fsub. rewrite Rminus_0_r, (rnd_id _ HD). unfold fdiv. replace (1 / 2 * (1 / big) / (1 / big)) with (1 / 2) by (unfold big; field). apply rnd_id. dbl 1%Z (-1)%Z. }
      rewrite X, (floor_at 0) by lra. unfold to_int. rewrite Ztrunc_IZR. reflexivity. }
    rewrite NP. cbn [rbind]. rewrite (thin_dist cosd 1) by lra. cbn [lt_nan]. rewrite ltb_no by lra. reflexivity.
Qed.
Print Assumptions C99_centre_found_refuted.

(** ** example: two rows of three pads *)
Definition two_rows : vd_args := mkVdArgs 3 1 1 0 0 0 2.
Example two_rows_ok : vd_limits (3 / 2) two_rows /\ exists l, vd_made_d (3 / 2) two_rows l.
Proof.
  split; [unfold vd_limits, two_rows; cbn; repeat split; lra || lia|]. unfold vd_made_d, vd_addRow_d, two_rows. cbn [va_nPads va_pitch va_height va_offset va_padWidth va_padHeight va_repeat]. change (3 <=? 0)%Z with false. change (2 <=? 0)%Z with false. cbv iota.
  rewrite (ltb_no 1 0), (ltb_no 0 0), (leb_no 1 0) by lra. assert (X1 : Reqb 0 0 = true) by (unfold Reqb; destruct (Req_EM_T 0 0); [reflexivity|lra]). rewrite X1. cbn [new_vd v_e1 v_nPad v_rows v_e0 v_e2 v_e3 v_padIndices].
  assert (C0 : fadd (3 / 2) (fmul 1 (1 / 2)) = 2). { unfold fadd, fmul. rewrite (rnd_id (1 * (1 / 2))) by dbl 1%Z (-1)%Z. rewrite rnd_id by dbl 2%Z 0%Z. lra. } rewrite C0. assert (C1 : fadd 2 1 = 3) by (unfold fadd; rewrite rnd_id by dbl 3%Z 0%Z; lra).
  assert (NR : forall n rc, 2 <= rc <= 3 -> exists row, new_vrow_d n 3 rc 1 1 1 1 0 = Ok row).
  { intros n rc RC. unfold new_vrow_d. unfold Reqb at 1. destruct (Req_EM_T rc 0); [lra|]. rewrite zero_div. rewrite (ltb_no 0 (- two_pi)) by (unfold two_pi; lra). rewrite (leb_no two_pi 0) by (unfold two_pi; lra). rewrite ltb_no; [eexists; reflexivity|].
    assert (B : 0 <= 1 / rc <= 1). { split; [apply Rmult_le_pos; [lra|]; left; apply Rinv_0_lt_compat; lra|]. apply Rmult_le_reg_r with rc; [lra|]. field_simplify; lra. }
    assert (D : 0 <= fdiv 1 rc <= 1). { split; [apply (rnd_lo 0); [apply double_0|apply B]|apply (rnd_up 1); [dbl 1%Z 0%Z|apply B]]. }
    apply Rle_trans with 3; [|unfold two_pi; lra]. apply (rnd_up 3); [dbl 3%Z 0%Z|lra]. }
  change (Z.to_nat 2) with 2%nat. cbn [vd_push_d v_rows List.length app]. destruct (NR (Z.of_nat 0) 2 ltac:(lra)) as (row0 & E0). rewrite E0. cbn [v_rows List.length app v_nPad v_e0 v_e1 v_e2 v_e3 v_padIndices]. rewrite C1. destruct (NR (Z.of_nat 1) 3 ltac:(lra)) as (row1 & E1). rewrite E1. cbn [v_rows app rev]. eexists. reflexivity.
Qed.
Example two_rows_point : well_inside_vd (3 / 2) two_rows 1 2 3 (3 / 4).
Proof. unfold well_inside_vd, pad_w, mid_r, two_rows. cbn [va_height va_pitch]. lra. Qed.

(** A call of addRow on a layout with rows: the rows there stay as they are, the new ones follow from the outer radius on, and the outer radius moves by their height. *)
Theorem C99_stacked : forall l a l', let h := va_height a in let e1 := nth 1 (vd_getPlaneExtent l) 0 in
  vd_addRow_d l (va_nPads a) (va_pitch a) h (va_offset a) (va_padWidth a) (va_padHeight a) (va_repeat a) = SOk l' tt ->
  vd_limits e1 a -> (vd_getNRows l + va_repeat a <= 65536)%Z ->
  vd_getNRows l' = (vd_getNRows l + va_repeat a)%Z /\
  (forall i j, (0 <= i < vd_getNRows l)%Z -> (0 <= j < 65536)%Z -> vd_getPadCenter_d l' (code i j) = vd_getPadCenter_d l (code i j)) /\
  (forall m j, (0 <= m < va_repeat a)%Z -> (0 <= j < 65536)%Z -> exists c, vd_getPadCenter_d l' (code (vd_getNRows l + m) j) = Ok c /\ Rabs (fst c - (e1 + (IZR m + 1 / 2) * h)) <= h / 1000000) /\
  nth 0 (vd_getPlaneExtent l') 0 = nth 0 (vd_getPlaneExtent l) 0 /\ Rabs (nth 1 (vd_getPlaneExtent l') 0 - (e1 + IZR (va_repeat a) * h)) <= h / 1000000.
Proof.
  intros l a l' h e1 E (L0 & L1 & L2 & L3 & L4 & L5 & L6) NR. unfold h in E. rewrite L3 in E. unfold vd_addRow_d in E.
  destruct (Z.leb_spec (va_nPads a) 0); [discriminate|]. destruct (Rltb (va_pitch a) 0); [discriminate|]. destruct (Rltb (va_padWidth a) 0); [discriminate|]. destruct (Rltb (va_pitch a) _); [discriminate|]. destruct (Rleb (va_height a) 0); [discriminate|].
  destruct (Z.leb_spec (va_repeat a) 0) as [?|RP]; [discriminate|]. destruct (vd_push_d _ _ _ _ _ _ _ _ _) as [l1 []|l1 ex|] eqn:P; try discriminate. destruct (rev (v_rows l1)) as [|row rs] eqn:RV; [discriminate|]. injection E as <-.
  assert (K : forall k nP rc p hh pw ph o x y, vd_push_d k nP rc p hh pw ph o x = SOk y tt -> v_e0 y = v_e0 x /\ v_e1 y = v_e1 x).
  { induction k as [|k IH]; intros nP rc p hh pw ph o x y Q; cbn [vd_push_d] in Q; [injection Q as <-; auto|]. destruct (new_vrow_d _ _ _ _ _ _ _ _); try discriminate. apply IH in Q. exact Q. }
  destruct (K _ _ _ _ _ _ _ _ _ _ P) as [K0 K1]. cbn [v_e0 v_e1] in K0, K1. apply push_rows in P. cbn [v_rows] in P. destruct P as (rows & R1 & R2 & R3). fold h in R3, L1, L6. change (v_e1 l) with e1 in *. unfold vd_getNRows in *. cbn [v_rows vd_getPlaneExtent nth]. rewrite K0, K1.
  assert (U : 0 < u64 <= / 1000000000000000) by (unfold u64; lra). assert (TY : 0 <= ty <= / 1000000000000000000000000000000) by (unfold ty; lra). assert (LN : List.length (v_rows l1) = (List.length (v_rows l) + Z.to_nat (va_repeat a))%nat) by (rewrite R1, app_length; lia).
  assert (N1 : 1 <= IZR (va_repeat a)) by (apply IZR_le; lia). assert (CR : forall n j, (0 <= n < Z.of_nat (List.length (v_rows l1)))%Z -> (0 <= j < 65536)%Z -> forall e2 e3 e4 n0 pi, vd_row_of (mkVd n0 (v_rows l1) (v_e0 l) e4 e2 e3 pi) (code n j) = sub (v_rows l1) n).
  { intros n j N J e2 e3 e4 n0 pi. unfold vd_row_of, vd_getRowNumber. rewrite code_row by lia. cbn [v_rows]. destruct (Z.ltb_spec n 0); [lia|]. destruct (Z.ltb_spec (Z.of_nat (List.length (v_rows l1)) - 1) n); [lia|]. reflexivity. }
  split; [lia|]. split; [|split; [|split; [reflexivity|]]].
  - intros i j I J. unfold vd_getPadCenter_d. rewrite CR by lia. unfold vd_row_of, vd_getRowNumber. rewrite code_row by lia. destruct (Z.ltb_spec i 0); [lia|]. destruct (Z.ltb_spec (Z.of_nat (List.length (v_rows l)) - 1) i); [lia|]. cbn [rbind orb].
    unfold sub, nthZ. destruct (Z.ltb_spec i 0); [lia|]. rewrite R1, nth_error_app1 by lia. reflexivity.
  - intros m j M J. unfold vd_getPadCenter_d. rewrite CR by lia. unfold sub, nthZ. destruct (Z.ltb_spec (Z.of_nat (List.length (v_rows l)) + m) 0); [lia|]. rewrite R1, nth_error_app2 by lia. replace (Z.to_nat (Z.of_nat (List.length (v_rows l)) + m) - List.length (v_rows l))%nat with (Z.to_nat m) by lia.
    destruct (nth_error rows (Z.to_nat m)) as [rw|] eqn:N; [|apply nth_error_None in N; lia]. cbn [rmap]. eexists. split; [reflexivity|]. cbn [fst].
    assert (M0 : 0 <= IZR m <= 4095) by (split; apply IZR_le; lia). assert (IM : INR (Z.to_nat m) = IZR m) by (rewrite INR_IZR_INZ; f_equal; lia).
    destruct (rows_near _ _ h (proj1 L1) rows _ _ (e1 + 1 / 2 * h) 5 _ rw R3 N ltac:(lra) ltac:(lra) ltac:(rewrite IM; lra) (rc_first e1 h L0 ltac:(lra))) as [_ Q]. rewrite IM in Q. set (X := e1 + 1 / 2 * h + IZR m * h) in *.
    assert (XB : 0 <= X <= 100000 * h). { assert (0 <= IZR m * h) by (apply Rmult_le_pos; lra). assert ((IZR m + 1) * h <= IZR (va_repeat a) * h) by (apply Rmult_le_compat_r; [lra|]; rewrite <- plus_IZR; apply IZR_le; lia). unfold X. lra. }
    assert (0 <= (5 + 2 * IZR m) * u64 * X <= 10000 * u64 * (100000 * h)) by (split; [apply Rmult_le_pos; [apply Rmult_le_pos; lra|lra]|apply Rmult_le_compat; [apply Rmult_le_pos; lra|lra|apply Rmult_le_compat_r; lra|lra]]). replace (e1 + (IZR m + 1 / 2) * h) with X by (unfold X; lra). apply Rabs_le. unfold u64 in *. lra.
  - pose proof (double_abs (IZR (va_repeat a) * h)) as D1. fold (fmul (IZR (va_repeat a)) h) in D1. assert (P0 : 0 <= IZR (va_repeat a) * h) by (apply Rmult_le_pos; lra). rewrite (Rabs_pos_eq _ P0) in D1. set (p := fmul (IZR (va_repeat a)) h) in *.
    assert (D1' : Rabs (p - IZR (va_repeat a) * h) <= h / 10000000) by (unfold u64 in *; lra). apply Rabs_le_inv in D1'. pose proof (double_abs (e1 + p)) as D2. fold (fadd e1 p) in D2. assert (Rabs (e1 + p) <= 200000 * h) by (apply Rabs_le; lra).
    assert (D2' : Rabs (fadd e1 p - (e1 + p)) <= h / 10000000) by (unfold u64 in *; lra). apply Rabs_le_inv in D2'. cbn [v_e1]. change (fadd e1 (fmul (IZR (va_repeat a)) (va_height a))) with (fadd e1 p). apply Rabs_le. lra.
Qed.
Print Assumptions C99_stacked.

(** two rows more on a layout that reaches to radius 3/2 already *)
Example two_rows_more : forall l, v_e1 l = 3 / 2 -> vd_limits (nth 1 (vd_getPlaneExtent l) 0) two_rows /\
  exists l', vd_addRow_d l (va_nPads two_rows) (va_pitch two_rows) (va_height two_rows) (va_offset two_rows) (va_padWidth two_rows) (va_padHeight two_rows) (va_repeat two_rows) = SOk l' tt.
Proof.
  intros l E1. split; [unfold vd_limits, two_rows; cbn; rewrite E1; repeat split; lra || lia|]. unfold vd_addRow_d, two_rows. rewrite E1. cbn [va_nPads va_pitch va_height va_offset va_padWidth va_padHeight va_repeat]. change (3 <=? 0)%Z with false. change (2 <=? 0)%Z with false. cbv iota.
  rewrite (ltb_no 1 0), (ltb_no 0 0), (leb_no 1 0) by lra. assert (X1 : Reqb 0 0 = true) by (unfold Reqb; destruct (Req_EM_T 0 0); [reflexivity|lra]). rewrite X1. cbn [v_e1 v_nPad v_rows v_e0 v_e2 v_e3 v_padIndices].
  assert (C0 : fadd (3 / 2) (fmul 1 (1 / 2)) = 2). { unfold fadd, fmul. rewrite (rnd_id (1 * (1 / 2))) by dbl 1%Z (-1)%Z. rewrite rnd_id by dbl 2%Z 0%Z. lra. } rewrite C0. assert (C1 : fadd 2 1 = 3) by (unfold fadd; rewrite rnd_id by dbl 3%Z 0%Z; lra).
  assert (NR : forall n rc, 2 <= rc <= 3 -> exists row, new_vrow_d n 3 rc 1 1 1 1 0 = Ok row).
  { intros n rc RC. unfold new_vrow_d. unfold Reqb at 1. destruct (Req_EM_T rc 0); [lra|]. rewrite zero_div. rewrite (ltb_no 0 (- two_pi)) by (unfold two_pi; lra). rewrite (leb_no two_pi 0) by (unfold two_pi; lra). rewrite ltb_no; [eexists; reflexivity|].
    assert (B : 0 <= 1 / rc <= 1). { split; [apply Rmult_le_pos; [lra|]; left; apply Rinv_0_lt_compat; lra|]. apply Rmult_le_reg_r with rc; [lra|]. field_simplify; lra. }
    assert (D : 0 <= fdiv 1 rc <= 1). { split; [apply (rnd_lo 0); [apply double_0|apply B]|apply (rnd_up 1); [dbl 1%Z 0%Z|apply B]]. }
    apply Rle_trans with 3; [|unfold two_pi; lra]. apply (rnd_up 3); [dbl 3%Z 0%Z|lra]. }
  change (Z.to_nat 2) with 2%nat. cbn [vd_push_d v_rows]. destruct (NR (Z.of_nat (List.length (v_rows l))) 2 ltac:(lra)) as (row0 & E0). rewrite E0. cbn [v_rows]. rewrite C1. destruct (NR (Z.of_nat (List.length (v_rows l ++ [row0]))) 3 ltac:(lra)) as (row1 & E2). rewrite E2. cbn [v_rows]. rewrite rev_unit. eexists. reflexivity.
Qed.
