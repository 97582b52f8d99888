(** Specification vocabulary for planar ladders in the arithmetic of the machine. *)
From Coq Require Import ZArith Reals.
From Verif Require Import Base RBase VecModel NumSpec ZpModel ZpSpec.
Open Scope R_scope.

Definition axis_distance (p : vec) : R := sqrt (vx p * vx p + vy p * vy p).
(** [r] is the largest distance from the beam axis of a point of the plate. *)
Definition largest_distance (gap : R) (q : zpart) (az r : R) : Prop :=
  (forall p, in_volume gap q az p -> axis_distance p <= r) /\ (exists p, in_volume gap q az p /\ axis_distance p = r).
(** Not unreasonably small or long. *)
Definition usual_size (gap : R) (q : zpart) : Prop :=
  / 1000000 <= q_d q + q_t q /\ / 1000000 <= q_w q /\ 0 <= gap /\ q_len q + gap / 2 <= 10000000000.
(** Everything the program is given is a double. *)
Definition part_double (q : zpart) : Prop :=
  is_double (q_d q) /\ is_double (q_off q) /\ is_double (q_t q) /\ is_double (q_len q) /\ is_double (q_w q) /\ is_double (q_rad q).
Definition vec_double (p : vec) : Prop := is_double (vx p) /\ is_double (vy p) /\ is_double (vz p).
