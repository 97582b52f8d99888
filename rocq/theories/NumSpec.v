(** What survives as text: numbers, independently of how they are printed and read. *)
From Coq Require Import ZArith Reals.
From Flocq Require Import Core.
From Verif Require Import NumModel.
Open Scope R_scope.

(** the values of type int *)
Definition is_int (z : Z) : Prop := (-2147483648 <= z <= 2147483647)%Z.

(** the finite values of type double (apart from their upper bound) *)
Definition is_double (x : R) : Prop :=
  exists m e : Z, x = IZR m * powerRZ 2 e /\ (Z.abs m < 2 ^ 53)%Z /\ (-1074 <= e)%Z.

(** zero, or neither extremely small nor extremely large *)
Definition normal (x : R) : Prop := x = 0 \/ powerRZ 2 (-1000) <= Rabs x <= powerRZ 2 1000.

(** numbers with at most ten significant decimal digits *)
Definition ten_digit_number (d : R) : Prop :=
  exists m e : Z, d = IZR m * powerRZ 10 e /\ (Z.abs m < 10 ^ 10)%Z.

(** [x] is a double, and no other double is closer to [d] *)
Definition nearest_double (d x : R) : Prop :=
  is_double x /\ forall y, is_double y -> Rabs (x - d) <= Rabs (y - d).

(** [x] comes back from its text; C33 says which numbers do *)
Definition kept (x : R) : Prop := atof (print_double x) = x.
