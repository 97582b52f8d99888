(** More about printed numbers: order, and the digits of particular numbers. *)
From Coq Require Import ZArith Reals List String Lia Lra.
From Flocq Require Import Core.
From Verif Require Import NumModel NumSpec NumProofs PiBounds.
Open Scope R_scope.
Local Existing Instances prec53 valid10 valid2.

Lemma reread_le : forall x y, x <= y -> atof (print_double x) <= atof (print_double y).
Proof.
  intros x y H. rewrite !atof_print. unfold to_double, ten_digits. apply round_le; [apply _ | apply _|].
  apply round_le; [apply _ | apply _ | exact H].
Qed.

Lemma digits_at : forall x e z, powerRZ 10 e <= x < powerRZ 10 (e + 1) -> Rabs (x * powerRZ 10 (9 - e) - IZR z) < 1 / 2 ->
  ten_digits x = IZR z * powerRZ 10 (e - 9).
Proof.
  intros x e z [L U] N.
  assert (B : forall k, bpow radix10 k = powerRZ 10 k).
  { intros k. rewrite bpow_powerRZ. reflexivity. }
  assert (P : 0 < x) by (eapply Rlt_le_trans; [|exact L]; apply powerRZ_lt; lra).
  assert (M : mag radix10 x = (e + 1)%Z :> Z).
  { apply mag_unique. rewrite Rabs_pos_eq by lra. rewrite !B. replace (e + 1 - 1)%Z with e by lia. split; assumption. }
  unfold ten_digits, round, F2R. cbn [Fnum Fexp]. unfold scaled_mantissa, cexp, FLX_exp. rewrite M.
  replace (e + 1 - 10)%Z with (e - 9)%Z by lia. rewrite !B. f_equal. f_equal.
  replace (- (e - 9))%Z with (9 - e)%Z by lia. apply Znearest_imp. lra.
Qed.

(** the digits of a full turn *)
Lemma turn_digits : ten_digits (2 * PI) = 6283185307 / 1000000000.
Proof.
  pose proof pi_bounds. rewrite (digits_at (2 * PI) 0 6283185307).
  - change (powerRZ 10 (0 - 9)) with (/ 10 ^ 9). lra.
  - change (powerRZ 10 0) with 1. change (powerRZ 10 (0 + 1)) with (10 * 1). lra.
  - change (powerRZ 10 (9 - 0)) with (10 ^ 9). apply Rabs_def1; lra.
Qed.

Lemma small_norm : forall d, 1 / 1000000 <= d -> powerRZ 2 (-1022) <= Rabs d.
Proof.
  intros d H. apply Rle_trans with (powerRZ 2 (-20)); [apply pow2_le; lia|]. change (powerRZ 2 (-20)) with (/ 2 ^ 20).
  rewrite Rabs_pos_eq by lra. lra.
Qed.

Lemma turn_read : 6283185306999 / 1000000000000 < atof (print_double (2 * PI)) < 6283185307001 / 1000000000000.
Proof.
  rewrite atof_print, turn_digits. pose proof (to_double_close (6283185307 / 1000000000) ltac:(apply small_norm; lra)) as C.
  rewrite (Rabs_pos_eq (6283185307 / 1000000000)) in C by lra. apply Rabs_le_inv in C. lra.
Qed.

Lemma turn_not_kept : ~ kept (2 * PI).
Proof. unfold kept. pose proof turn_read. pose proof pi_bounds. intros E. lra. Qed.

(** an angle within a turn is read as an angle within a turn *)
Lemma within_turn : forall x, -2 * PI <= x <= 2 * PI -> -2 * PI <= atof (print_double x) <= 2 * PI.
Proof.
  intros x [L U]. apply reread_le in U. pose proof turn_read. pose proof pi_bounds. split; [|lra].
  assert (E : atof (print_double (- (2 * PI))) = - atof (print_double (2 * PI))).
  { rewrite !atof_print. unfold ten_digits. rewrite round_NE_opp. unfold to_double. rewrite round_NE_opp. reflexivity. }
  replace (-2 * PI) with (- (2 * PI)) in L by ring. apply reread_le in L. lra.
Qed.
