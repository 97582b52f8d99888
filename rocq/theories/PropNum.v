(** Property theorems for C33: numbers as text *)
From Coq Require Import ZArith Reals List String Ascii Bool Lia Lra.
From Verif Require Import Base XmlModel NumModel NumSpec NumProofs.
Open Scope R_scope.

(** Ints and doubles of the examples, and what the file says. *)
Example ints_case : is_int (-2147483648) /\ is_int 42 /\ print_int (-2147483648) = "-2147483648"%string /\ print_int 42 = "42"%string.
Proof. unfold is_int. split; [lia|]. split; [lia|]. split; reflexivity. Qed.
Example text_case : atoi "  17 rest" = Ok 17%Z /\ atoi "abc" = Ok 0%Z /\ atoi "2147483648" = UB /\ read_decimal " -12.50E-3x" = ((-1250)%Z, (-5)%Z).
Proof. repeat split; reflexivity. Qed.
Example normal_case : normal 0 /\ normal 1 /\ normal (-3 / 10).
Proof.
  assert (L : powerRZ 2 (-1000) <= powerRZ 2 (-2)) by (apply pow2_le; lia).
  assert (U : powerRZ 2 0 <= powerRZ 2 1000) by (apply pow2_le; lia).
  change (powerRZ 2 0) with 1 in U. change (powerRZ 2 (-2)) with (/ (2 * (2 * 1))) in L.
  split; [left; reflexivity|]. split; right; [rewrite Rabs_R1|rewrite Rabs_left by lra]; lra.
Qed.
(** One half has ten digits and is a double; no other double is as near. *)
Example half_case : ten_digit_number (/ 2) /\ normal (/ 2) /\ nearest_double (/ 2) (/ 2) /\ forall y, nearest_double (/ 2) y -> y = / 2.
Proof.
  assert (D : is_double (/ 2)).
  { exists 1%Z, (-1)%Z. split; [change (powerRZ 2 (-1)) with (/ (2 * 1)); lra|]. split; [reflexivity | lia]. }
  assert (L : powerRZ 2 (-1000) <= powerRZ 2 (-2)) by (apply pow2_le; lia).
  assert (U : powerRZ 2 0 <= powerRZ 2 1000) by (apply pow2_le; lia).
  change (powerRZ 2 0) with 1 in U. change (powerRZ 2 (-2)) with (/ (2 * (2 * 1))) in L.
  split; [exists 5%Z, (-1)%Z; split; [change (powerRZ 10 (-1)) with (/ (10 * 1)); lra | reflexivity]|].
  split; [right; rewrite Rabs_pos_eq by lra; lra|].
  split; [split; [exact D|]; intros y _; replace (/ 2 - / 2) with 0 by ring; rewrite Rabs_R0; apply Rabs_pos|].
  intros y [_ N]. specialize (N _ D). replace (/ 2 - / 2) with 0 in N by ring. rewrite Rabs_R0 in N.
  destruct (Req_dec (y - / 2) 0) as [E|E]; [lra|]. pose proof (Rabs_pos_lt _ E). lra.
Qed.

(** Every int that is written is read back. *)
Theorem C33_int_kept : forall z, is_int z -> atoi (print_int z) = Ok z.
Proof. exact int_kept. Qed.
Print Assumptions C33_int_kept.

(** Every double that is written is read back with a relative error below 5.001e-10. *)
Theorem C33_double_close : forall x, normal x -> Rabs (atof (print_double x) - x) <= 5001 / 10000000000000 * Rabs x.
Proof. exact double_close. Qed.
Print Assumptions C33_double_close.

(** Writing what was read gives the same text again. *)
Theorem C33_text_stable : forall x, normal x -> print_double (atof (print_double x)) = print_double x.
Proof. exact text_stable. Qed.
Print Assumptions C33_text_stable.

(** Reading it again gives the same number again. *)
Theorem C33_double_stable : forall x, normal x ->
  atof (print_double (atof (print_double x))) = atof (print_double x).
Proof. exact double_stable. Qed.
Print Assumptions C33_double_stable.

(** Only doubles nearest to a number with ten significant digits come back exactly. *)
Theorem C33_kept_nearest : forall x, atof (print_double x) = x ->
  exists d, ten_digit_number d /\ nearest_double d x.
Proof. exact kept_nearest. Qed.
Print Assumptions C33_kept_nearest.

(** Each double that is the one nearest to a number with ten significant digits comes back exactly. *)
Theorem C33_nearest_kept : forall d x, ten_digit_number d -> normal d -> nearest_double d x ->
  (forall y, nearest_double d y -> y = x) -> atof (print_double x) = x.
Proof. exact nearest_kept. Qed.
Print Assumptions C33_nearest_kept.

(** Whole numbers of up to ten digits come back exactly. *)
Theorem C33_whole_kept : forall z : Z, (Z.abs z < 10 ^ 10)%Z -> atof (print_double (IZR z)) = IZR z.
Proof. exact whole_kept. Qed.
Print Assumptions C33_whole_kept.

(** Not every double comes back exactly. *)
Theorem C33_lossy : exists x, is_double x /\ normal x /\ atof (print_double x) <> x.
Proof. exact lossy. Qed.
Print Assumptions C33_lossy.

(** The largest double comes back larger than every double: it is read as infinity. *)
Theorem C33_largest_refuted : exists x, is_double x /\ x < powerRZ 2 1024 /\ powerRZ 2 1024 <= atof (print_double x).
Proof. exact largest_overflows. Qed.
Print Assumptions C33_largest_refuted.
