(** Specification vocabulary for pads of fixed angle in the arithmetic of the machine. *)
From Coq Require Import ZArith Reals.
From Verif Require Import Base RBase NumSpec DiskSpec FpModel.
Open Scope R_scope.

Definition row_height (a : fpa_args) : R := (pa_rMax a - pa_rMin a) / IZR (pa_nRow a).
Definition pad_angle (a : fpa_args) : R := (pa_phiMax a - pa_phiMin a) / IZR (pa_nPads a).
(** Angles and sizes not out of all proportion; at most one turn, which in doubles is a little less than a full one. *)
Definition moderate (a : fpa_args) : Prop :=
  / 1000000000 <= row_height a /\ / 1000000 <= pad_angle a /\
  Rabs (pa_phiMin a) <= 100 /\ Rabs (pa_phiMax a) <= 100 /\ pa_phiMax a - pa_phiMin a <= two_pi.
(** Inside pad [j] of row [i], at least a millionth of its size away from the edges. *)
Definition well_inside (a : fpa_args) (i j : Z) (r phi : R) : Prop :=
  fpa_r a i + row_height a / 1000000 <= r <= fpa_r a (i + 1) - row_height a / 1000000 /\
  fpa_phi a j + pad_angle a / 1000000 <= phi <= fpa_phi a (j + 1) - pad_angle a / 1000000.
Definition args_double (a : fpa_args) : Prop := is_double (pa_rMin a) /\ is_double (pa_rMax a) /\ is_double (pa_phiMin a) /\ is_double (pa_phiMax a).
