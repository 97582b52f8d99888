(** Proofs about double arithmetic. *)
From Coq Require Import ZArith List Bool Reals Lra Lia Machin Ratan.
From Flocq Require Import Core Relative.
From Verif Require Import Base RBase NumModel NumSpec NumProofs FpModel FpSpec.
Import ListNotations.
Open Scope R_scope.

Local Instance p53 : Prec_gt_0 53. Proof. reflexivity. Qed.
Local Instance v2 : Valid_exp F2. Proof. apply FLT_exp_valid. exact p53. Qed.
Local Instance mono2 : Monotone_exp F2. Proof. apply FLT_exp_monotone. Qed.

Lemma rnd_double x : is_double (to_double x).
Proof. apply double_format, generic_format_round; apply _. Qed.
Lemma rnd_id x : is_double x -> to_double x = x.
Proof. intros H. apply round_generic; [apply _|now apply double_format]. Qed.
Lemma rnd_le x y : x <= y -> to_double x <= to_double y.
Proof. intros H. apply round_le; [apply _|apply _|exact H]. Qed.
Lemma rnd_opp x : to_double (- x) = - to_double x.
Proof. apply round_NE_opp. Qed.
Lemma rnd_0 : to_double 0 = 0.
Proof. apply round_0. apply _. Qed.
Lemma rnd_below x d : is_double x -> 0 <= d -> to_double (x - d) <= x.
Proof. intros H D. rewrite <- (rnd_id x H) at 2. apply rnd_le. lra. Qed.
(** half a unit in the last place *)
Lemma rnd_half v e : (-1074 <= e)%Z -> Rabs v < bpow radix2 (e + 53) -> Rabs (to_double v - v) <= bpow radix2 e / 2.
Proof.
  intros He H. pose proof (error_le_half_ulp radix2 F2 (fun x => negb (Z.even x)) v) as E.
  destruct (Req_dec v 0) as [->|N].
  - rewrite rnd_0. replace (0 - 0) with 0 by ring. rewrite Rabs_R0. pose proof (bpow_gt_0 radix2 e). lra.
  - rewrite ulp_neq_0 in E by exact N.
    assert (C : (cexp radix2 F2 v <= e)%Z).
    { unfold cexp, FLT_exp. pose proof (mag_le_bpow radix2 v (e + 53) N H). lia. }
    apply (bpow_le radix2) in C. unfold to_double. lra.
Qed.
Lemma rnd_rel v : Rabs (to_double v - v) <= (Rabs v + 1) * / 9007199254740992.
Proof.
  destruct (error_N_FLT radix2 (-1074) 53 ltac:(reflexivity) (fun x => negb (Z.even x)) v) as (eps & eta & E1 & E2 & _ & E).
  unfold to_double. rewrite E. replace (v * (1 + eps) + eta - v) with (v * eps + eta) by ring.
  cbn in E1.
  assert (B2 : bpow radix2 (-1074) <= / 9007199254740992).
  { replace (/ 9007199254740992) with (bpow radix2 (-53)) by (cbn; lra). apply bpow_le. lia. }
  eapply Rle_trans; [apply Rabs_triang|]. rewrite Rabs_mult. pose proof (Rabs_pos v).
  assert (Rabs v * Rabs eps <= Rabs v * / 9007199254740992) by (apply Rmult_le_compat_l; lra). lra.
Qed.

Lemma pi_term n : tg_alt PI_2_3_7_tg n = (-1) ^ n * (2 * ((/ 3) * (/ 9) ^ n / IZR (2 * Z.of_nat n + 1)) + (/ 7) * (/ 49) ^ n / IZR (2 * Z.of_nat n + 1)).
Proof.
  unfold tg_alt, PI_2_3_7_tg, Ratan_seq. rewrite INR_IZR_INZ. replace (Z.of_nat (2 * n + 1)) with (2 * Z.of_nat n + 1)%Z by lia.
  rewrite !Nat.add_1_r. cbn [pow]. rewrite !pow_mult. replace ((/ 3) ^ 2) with (/ 9) by field. replace ((/ 7) ^ 2) with (/ 49) by field. unfold Rdiv. reflexivity.
Qed.
Lemma PI_close : 3141592653589793 / 1000000000000000 + 23 / 100000000000000000 < PI < 3141592653589793 / 1000000000000000 + 24 / 100000000000000000.
Proof.
  pose proof (PI_2_3_7_ineq 9) as H. change (S (2 * 9))%nat with 19%nat in H. change (2 * 9)%nat with 18%nat in H.
  cbn [sum_f_R0] in H. rewrite !pi_term in H. cbn [Z.of_nat Z.mul Z.add Pos.mul Pos.add Pos.of_succ_nat Pos.succ pow] in H.
  lra.
Qed.
Lemma two_pi_close : - (3 / 10000000000000000) < two_pi - 2 * PI < 0.
Proof. pose proof PI_close. unfold two_pi. lra. Qed.
Lemma two_pi_bounds : 628 / 100 < two_pi < 629 / 100.
Proof. unfold two_pi. lra. Qed.
Lemma is_double_IZR : forall m e x, x = IZR m * powerRZ 2 e -> (Z.abs m < 2 ^ 53)%Z -> (-1074 <= e)%Z -> is_double x.
Proof. intros m e x H1 H2 H3. exists m, e. auto. Qed.
Lemma double_two_pi : is_double two_pi.
Proof. apply (is_double_IZR 884279719003555 (-47)); [unfold two_pi; change 2 with (IZR radix2); rewrite <- bpow_powerRZ; cbn; lra|reflexivity|lia]. Qed.
Lemma double_0 : is_double 0.
Proof. apply (is_double_IZR 0 0); [cbn; lra|reflexivity|lia]. Qed.
Lemma double_opp x : is_double x -> is_double (- x).
Proof. intros (m & e & -> & M & E). exists (- m)%Z, e. rewrite opp_IZR. split; [ring|]. split; [lia|exact E]. Qed.

Lemma bpow56 : bpow radix2 56 = huge.
Proof. unfold huge. cbn. lra. Qed.

(** each turn of the loop moves on by more than 2, as long as the numbers are not huge *)
Lemma step_down x : - (2 * large) <= x <= huge -> fsub x two_pi <= x - 2.
Proof.
  intros H. pose proof two_pi_bounds. unfold fsub.
  assert (B : Rabs (x - two_pi) < bpow radix2 (3 + 53)).
  { change (3 + 53)%Z with 56%Z. rewrite bpow56. unfold large, huge in *. apply Rabs_def1; lra. }
  pose proof (rnd_half (x - two_pi) 3 ltac:(lia) B) as E. apply Rabs_le_inv in E. cbn in E. lra.
Qed.
(** and does not move at all once they are *)
Lemma step_stuck x : is_double x -> huge < x -> fsub x two_pi = x.
Proof.
  intros D H. pose proof two_pi_bounds. unfold fsub. apply Rle_antisym; [apply rnd_below; [exact D|lra]|].
  pose proof (proj1 (double_format x) D) as FX.
  assert (M : forall y, generic_format radix2 F2 y -> huge <= y -> exists k : Z, y = IZR k * 16).
  { intros y Fy Hy. assert (Hy0 : 0 < y) by (unfold huge in Hy; lra). exists (Ztrunc (scaled_mantissa radix2 F2 y) * 2 ^ (cexp radix2 F2 y - 4))%Z.
    assert (C : (4 <= cexp radix2 F2 y)%Z).
    { unfold cexp, FLT_exp. assert (56 < mag radix2 y)%Z by (apply mag_gt_bpow; rewrite bpow56, Rabs_pos_eq; lra). lia. }
    rewrite Fy at 1. unfold F2R. cbn [Fnum Fexp]. rewrite mult_IZR, (IZR_Zpower radix2) by lia. rewrite Rmult_assoc. f_equal.
    replace 16 with (bpow radix2 4) by (cbn; lra). rewrite <- bpow_plus. f_equal. lia. }
  assert (FH : generic_format radix2 F2 huge) by (rewrite <- bpow56; apply generic_format_bpow; cbn; lia).
  assert (P : huge <= pred radix2 F2 x) by (apply pred_ge_gt; try assumption; apply _).
  assert (PL : pred radix2 F2 x < x) by (apply pred_lt_id; unfold huge in H; lra).
  destruct (M x FX ltac:(lra)) as [a A]. destruct (M _ (generic_format_pred radix2 F2 x FX) P) as [b B].
  assert (AB : (b + 1 <= a)%Z). { assert (PL' : IZR b * 16 < IZR a * 16) by (rewrite <- A, <- B; exact PL). assert (LT : IZR b < IZR a) by lra. apply lt_IZR in LT. lia. }
  apply IZR_le in AB. rewrite plus_IZR in AB.
  apply round_N_ge_midp; [apply _|exact FX|]. rewrite B. lra.
Qed.

(** ** the loop downwards *)
Lemma loop_down_ends hi B : - large <= hi -> Rabs hi + 7 <= B -> forall n x, is_double x -> x <= huge -> x + 7 <= B -> x - hi <= 2 * INR n ->
  exists y j, loop_down n hi x = Some y /\ is_double y /\ y <= hi /\ Rmin x (fsub hi two_pi) <= y /\ (x <= hi -> y = x /\ j = O) /\ (hi < x -> fsub hi two_pi <= y) /\ y <= x /\
  (INR j <= (Rmax 0 (x - hi)) / 2 + 1) /\ Rabs (y - (x - INR j * two_pi)) <= INR j * (B + 1) * / 9007199254740992.
Proof.
  intros HL HB. pose proof two_pi_bounds as T.
  assert (Stop : forall n x, is_double x -> x <= hi -> exists y j, loop_down n hi x = Some y /\ is_double y /\ y <= hi /\ Rmin x (fsub hi two_pi) <= y /\ (x <= hi -> y = x /\ j = O) /\ (hi < x -> fsub hi two_pi <= y) /\ y <= x /\
    (INR j <= (Rmax 0 (x - hi)) / 2 + 1) /\ Rabs (y - (x - INR j * two_pi)) <= INR j * (B + 1) * / 9007199254740992).
  { intros n x D L. exists x, O. split; [destruct n; cbn; destruct (Rltb_spec hi x); try lra; reflexivity|]. split; [exact D|]. split; [exact L|]. split; [apply Rmin_l|]. split; [auto|]. split; [lra|]. split; [lra|].
    split; [pose proof (Rmax_l 0 (x - hi)); cbn; lra|]. cbn [INR]. rewrite !Rmult_0_l. replace (x - (x - 0)) with 0 by ring. rewrite Rabs_R0. lra. }
  induction n as [|n IH]; intros x D U XB F.
  - cbn [INR] in F. apply Stop; [exact D|lra].
  - destruct (Rle_lt_dec x hi) as [L|L]; [apply Stop; assumption|].
    assert (AH : - Rabs hi <= hi <= Rabs hi) by (apply Rabs_le_inv; lra).
    pose proof (step_down x ltac:(unfold large in *; lra)) as St. rewrite S_INR in F.
    assert (D' : is_double (fsub x two_pi)) by apply rnd_double.
    destruct (IH (fsub x two_pi) D' ltac:(lra) ltac:(lra) ltac:(lra)) as (y & j & E & Dy & Y1 & Y2 & Y3 & Y4 & Y5 & Y6 & Y7).
    assert (LO : fsub hi two_pi <= fsub x two_pi) by (apply rnd_le; lra).
    assert (LO' : fsub hi two_pi <= y) by (eapply Rle_trans; [|exact Y2]; apply Rmin_glb; lra).
    exists y, (S j). split; [cbn; destruct (Rltb_spec hi x); [exact E|lra]|]. split; [exact Dy|]. split; [exact Y1|].
    split; [eapply Rle_trans; [apply Rmin_r|exact LO']|]. split; [lra|]. split; [auto|]. split; [lra|]. split.
    + rewrite S_INR. destruct (Rle_lt_dec (fsub x two_pi) hi) as [L'|L'].
      * (* the loop is over: j = 0 *)
        rewrite (Rmax_right 0 (x - hi)) by lra. rewrite (Rmax_left 0 (fsub x two_pi - hi)) in Y6 by lra.
        destruct (Y3 L') as [_ ->]. cbn. lra.
      * rewrite (Rmax_right 0 (x - hi)) by lra. rewrite (Rmax_right 0 (fsub x two_pi - hi)) in Y6 by lra. lra.
    + rewrite S_INR. pose proof (rnd_rel (x - two_pi)) as R. fold (fsub x two_pi) in R.
      assert (AV : Rabs (x - two_pi) <= B) by (apply Rabs_le; lra).
      replace (y - (x - (INR j + 1) * two_pi)) with ((y - (fsub x two_pi - INR j * two_pi)) + (fsub x two_pi - (x - two_pi))) by ring.
      eapply Rle_trans; [apply Rabs_triang|]. lra.
Qed.

Lemma loop_up_is n : forall lo x, loop_up n lo x = option_map Ropp (loop_down n (- lo) (- x)).
Proof.
  induction n as [|n IH]; intros lo x; cbn; destruct (Rltb_spec x lo), (Rltb_spec (- lo) (- x)); try lra; try reflexivity; cbn; rewrite ?Ropp_involutive; try reflexivity.
  rewrite IH. do 2 f_equal. unfold fadd, fsub. rewrite <- rnd_opp. f_equal. ring.
Qed.
Lemma more_fuel_down : forall n m hi x y, (n <= m)%nat -> loop_down n hi x = Some y -> loop_down m hi x = Some y.
Proof.
  induction n as [|n IH]; intros m hi x y L H; cbn in H.
  - destruct (Rltb_spec hi x); [discriminate|]. destruct m; cbn; destruct (Rltb_spec hi x); try lra; exact H.
  - destruct m as [|m]; [lia|]. cbn. destruct (Rltb_spec hi x); [apply IH; [lia|exact H]|exact H].
Qed.
Lemma more_fuel_up : forall n m lo x y, (n <= m)%nat -> loop_up n lo x = Some y -> loop_up m lo x = Some y.
Proof.
  intros n m lo x y L. rewrite !loop_up_is. destruct (loop_down n (- lo) (- x)) eqn:E; [|discriminate].
  rewrite (more_fuel_down _ _ _ _ _ L E). auto.
Qed.
Lemma nat_above r : exists n, r <= INR n.
Proof.
  exists (Z.to_nat (up r)). destruct (archimed r) as [A _]. destruct (Z_le_gt_dec 0 (up r)) as [Z|Z].
  - rewrite INR_IZR_INZ, Z2Nat.id by exact Z. lra.
  - assert (IZR (up r) <= 0) by (apply (IZR_le _ 0); lia). pose proof (pos_INR (Z.to_nat (up r))). lra.
Qed.

Lemma angle_returns : forall lo hi phi, is_double lo -> is_double hi -> is_double phi -> - large <= lo -> lo <= hi -> hi <= large ->
  Rabs phi <= huge ->
  exists y, ends_with lo hi phi y /\ is_double y /\ Rmin lo (fsub hi two_pi) <= y <= hi /\ (lo <= phi <= hi -> y = phi) /\
    turned phi y (turn_error lo hi phi).
Proof.
  intros lo hi phi Dl Dh Dp Ll LH Lh HP. pose proof two_pi_bounds as T. apply Rabs_le_inv in HP.
  assert (Al := Rabs_le_inv lo (Rabs lo) ltac:(lra)).
  assert (Ah := Rabs_le_inv hi (Rabs hi) ltac:(lra)). assert (Ap := Rabs_le_inv phi (Rabs phi) ltac:(lra)).
  set (S := Rabs phi + Rabs lo + Rabs hi + 16). set (B := S - 1).
  destruct (nat_above ((lo - phi) / 2)) as [n1 N1].
  destruct (loop_down_ends (- lo) B ltac:(lra) ltac:(unfold B, S; rewrite Rabs_Ropp; lra) n1 (- phi) (double_opp _ Dp) ltac:(lra) ltac:(unfold B, S; lra) ltac:(lra))
    as (z & j1 & E1 & D1 & Y1 & Y2 & Y3 & Y4 & Y5 & Y6 & Y7).
  assert (Z : (lo <= phi /\ z = - phi /\ j1 = O) \/ (phi < lo /\ - z <= lo + 7 /\ INR j1 <= (Rabs lo + Rabs phi) / 2 + 1)).
  { destruct (Rle_lt_dec lo phi) as [L|L]; [left; destruct (Y3 ltac:(lra)); auto|right]. split; [exact L|]. split.
    - specialize (Y4 ltac:(lra)). pose proof (rnd_rel (- lo - two_pi)) as R. fold (fsub (- lo) two_pi) in R. apply Rabs_le_inv in R.
      assert (Rabs (- lo - two_pi) <= large + 7) by (apply Rabs_le; lra). unfold large in *. lra.
    - rewrite Rmax_right in Y6 by lra. lra. }
  destruct (nat_above ((- z - hi) / 2)) as [n2 N2].
  destruct (loop_down_ends hi B ltac:(lra) ltac:(unfold B, S; lra) n2 (- z) (double_opp _ D1) ltac:(unfold large, huge in *; lra) ltac:(unfold B, S; lra) ltac:(lra))
    as (y & j2 & E2 & D2 & W1 & W2 & W3 & W4 & W5 & W6 & W7).
  exists y. split; [|split; [exact D2|split; [split; [|exact W1]|split]]].
  - exists (n1 + n2)%nat. unfold wrap. rewrite (more_fuel_up n1 (n1 + n2) lo phi (- z)); [|lia|rewrite loop_up_is, E1; reflexivity].
    apply (more_fuel_down n2); [lia|exact E2].
  - eapply Rle_trans; [|exact W2]. apply Rmin_glb; [eapply Rle_trans; [apply Rmin_l|lra]|apply Rmin_r].
  - intros L. destruct (Y3 ltac:(lra)) as [-> _]. rewrite Ropp_involutive in *. apply W3. lra.
  - exists (Z.of_nat j1 - Z.of_nat j2)%Z. rewrite minus_IZR, <- !INR_IZR_INZ.
    replace (y - (phi + (INR j1 - INR j2) * (2 * PI))) with ((y - (- z - INR j2 * two_pi)) - (z - (- phi - INR j1 * two_pi)) + (INR j1 - INR j2) * (two_pi - 2 * PI)) by ring.
    eapply Rle_trans; [apply Rabs_triang|]. eapply Rle_trans; [apply Rplus_le_compat_r, Rabs_triang|]. rewrite Rabs_Ropp.
    assert (J : INR j1 + INR j2 <= S).
    { destruct Z as [(L & -> & ->)|(L & Z1 & Z2)]; unfold S.
      - cbn [INR]. rewrite Ropp_involutive in W6. unfold Rmax in W6. destruct (Rle_dec _ _); lra.
      - unfold Rmax in W6. destruct (Rle_dec _ _); lra. }
    assert (S16 : 16 <= S) by (unfold S; lra). replace (B + 1) with S in * by (unfold B; ring).
    assert (INR j1 * S + INR j2 * S <= S * S) by (rewrite <- Rmult_plus_distr_r; apply Rmult_le_compat_r; lra).
    pose proof two_pi_close as TP. assert (TA : Rabs (two_pi - 2 * PI) <= 3 / 10000000000000000) by (apply Rabs_le; lra).
    assert (K : Rabs ((INR j1 - INR j2) * (two_pi - 2 * PI)) <= S * (3 / 10000000000000000)).
    { rewrite Rabs_mult. pose proof (pos_INR j1). pose proof (pos_INR j2). assert (Rabs (INR j1 - INR j2) <= S) by (apply Rabs_le; lra). apply Rmult_le_compat; try apply Rabs_pos; assumption. }
    assert (16 * S <= S * S) by (apply Rmult_le_compat_r; lra).
    unfold turn_error. fold S. replace (S ^ 2 / 4503599627370496) with (S * S * / 4503599627370496) by (cbn; lra). lra.
Qed.

Lemma angle_stuck : forall lo hi phi, is_double phi -> - large <= lo -> lo <= hi -> hi <= large -> huge < Rabs phi -> never_ends lo hi phi.
Proof.
  intros lo hi phi D L M H P n. unfold wrap.
  assert (Down : forall m h x, is_double x -> huge < x -> h <= large -> loop_down m h x = None).
  { intros m h x Dx Hx Hh. induction m as [|m IH]; cbn; (destruct (Rltb_spec h x); [|unfold large, huge in *; lra]); [reflexivity|]. rewrite step_stuck by assumption. exact IH. }
  destruct (Rle_lt_dec 0 phi) as [Q|Q].
  - rewrite Rabs_pos_eq in P by exact Q.
    assert (U : loop_up n lo phi = Some phi).
    { destruct n; cbn; destruct (Rltb_spec phi lo); auto; unfold large, huge in *; lra. }
    rewrite U. apply Down; assumption.
  - rewrite Rabs_left in P by exact Q. rewrite loop_up_is, Down; [reflexivity|apply double_opp; exact D|exact P|lra].
Qed.

Lemma circle_returns : forall phi, is_double phi -> Rabs phi <= huge ->
  exists n y, wrap_circle n phi = Some y /\ is_double y /\ 0 <= y < 2 * PI /\ (0 <= phi <= two_pi -> y = phi) /\ turned phi y ((Rabs phi + 23) ^ 2 / 4503599627370496).
Proof.
  intros phi D H. pose proof two_pi_bounds. pose proof two_pi_close.
  destruct (angle_returns 0 two_pi phi double_0 double_two_pi D ltac:(unfold large; lra) ltac:(lra) ltac:(unfold large; lra) H) as (y & (n & E) & Dy & R & I & T).
  exists n, y. split; [exact E|]. split; [exact Dy|]. unfold fsub in R. replace (two_pi - two_pi) with 0 in R by ring. rewrite rnd_0, Rmin_left in R by lra.
  split; [lra|]. split; [exact I|]. destruct T as [k T]. exists k. eapply Rle_trans; [exact T|]. unfold turn_error. rewrite Rabs_R0, (Rabs_pos_eq two_pi) by lra. pose proof (Rabs_pos phi).
  apply Rmult_le_compat_r; [lra|]. apply pow_incr. lra.
Qed.
Lemma two_turns_returns : forall phi, is_double phi -> Rabs phi <= huge ->
  exists n y, wrap_two_turns n phi = Some y /\ is_double y /\ - (2 * PI) < y < 2 * PI /\ (- two_pi <= phi <= two_pi -> y = phi) /\ turned phi y ((Rabs phi + 29) ^ 2 / 4503599627370496).
Proof.
  intros phi D H. pose proof two_pi_bounds. pose proof two_pi_close.
  destruct (angle_returns (- two_pi) two_pi phi (double_opp _ double_two_pi) double_two_pi D ltac:(unfold large; lra) ltac:(lra) ltac:(unfold large; lra) H) as (y & (n & E) & Dy & R & I & T).
  exists n, y. split; [exact E|]. split; [exact Dy|]. unfold fsub in R. replace (two_pi - two_pi) with 0 in R by ring. rewrite rnd_0, Rmin_left in R by lra.
  split; [lra|]. split; [exact I|]. destruct T as [k T]. exists k. eapply Rle_trans; [exact T|]. unfold turn_error. rewrite Rabs_Ropp, (Rabs_pos_eq two_pi) by lra. pose proof (Rabs_pos phi).
  apply Rmult_le_compat_r; [lra|]. apply pow_incr. lra.
Qed.
Lemma m_pi_close : 3 < m_pi < PI /\ PI - m_pi < 15 / 100000000000000000.
Proof. pose proof PI_close. unfold m_pi. lra. Qed.
Lemma around_returns : forall mean phi, is_double mean -> is_double phi -> Rabs mean <= 1000 -> Rabs phi <= huge ->
  exists n y, wrap_around n mean phi = Some y /\ is_double y /\ Rabs (y - mean) <= PI + 1 / 1000000000000 /\ turned phi y ((Rabs phi + 2 * Rabs mean + 24) ^ 2 / 4503599627370496).
Proof.
  intros mean phi Dm D Hm H. pose proof two_pi_bounds. pose proof two_pi_close. pose proof m_pi_close. pose proof (Rabs_le_inv _ _ Hm) as Bm. pose proof PI_close.
  assert (F1 : Rabs (fsub mean m_pi - (mean - m_pi)) <= 1010 * / 9007199254740992) by (eapply Rle_trans; [apply rnd_rel|]; apply Rmult_le_compat_r; [lra|]; assert (Rabs (mean - m_pi) <= 1005) by (apply Rabs_le; lra); lra).
  assert (F2 : Rabs (fadd mean m_pi - (mean + m_pi)) <= 1010 * / 9007199254740992) by (eapply Rle_trans; [apply rnd_rel|]; apply Rmult_le_compat_r; [lra|]; assert (Rabs (mean + m_pi) <= 1005) by (apply Rabs_le; lra); lra).
  apply Rabs_le_inv in F1, F2.
  assert (F3 : Rabs (fsub (fadd mean m_pi) two_pi - (fadd mean m_pi - two_pi)) <= 1020 * / 9007199254740992) by (eapply Rle_trans; [apply rnd_rel|]; apply Rmult_le_compat_r; [lra|]; assert (Rabs (fadd mean m_pi - two_pi) <= 1015) by (apply Rabs_le; lra); lra).
  apply Rabs_le_inv in F3. assert (T2 : two_pi = 2 * m_pi) by (unfold two_pi, m_pi; lra).
  destruct (angle_returns (fsub mean m_pi) (fadd mean m_pi) phi (rnd_double _) (rnd_double _) D ltac:(unfold large; lra) ltac:(lra) ltac:(unfold large; lra) H) as (y & (n & E) & Dy & R & _ & T).
  exists n, y. split; [exact E|]. split; [exact Dy|]. split.
  - apply Rabs_le. unfold Rmin in R. destruct (Rle_dec _ _) in R; lra.
  - destruct T as [k T]. exists k. eapply Rle_trans; [exact T|]. unfold turn_error. pose proof (Rabs_pos phi).
    pose proof (Rle_abs mean). pose proof (Rle_abs (- mean)). rewrite Rabs_Ropp in *. pose proof (Rabs_pos (fsub mean m_pi)). pose proof (Rabs_pos (fadd mean m_pi)).
    assert (Rabs (fsub mean m_pi) <= Rabs mean + 4) by (apply Rabs_le; lra). assert (Rabs (fadd mean m_pi) <= Rabs mean + 4) by (apply Rabs_le; lra).
    apply Rmult_le_compat_r; [lra|]. apply pow_incr. lra.
Qed.
