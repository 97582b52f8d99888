(** What C73 and C74 say about double arithmetic. *)
From Coq Require Import ZArith List Bool Reals.
From Verif Require Import Base RBase NumModel NumSpec FpModel.
Import ListNotations.
Open Scope R_scope.

(** The loops that bring [phi] into the window end with [y]; they never end. *)
Definition ends_with (lo hi phi y : R) : Prop := exists n, wrap n lo hi phi = Some y.
Definition never_ends (lo hi phi : R) : Prop := forall n, wrap n lo hi phi = None.
(** 2^56 and 2^50 *)
Definition huge : R := 72057594037927936.
Definition large : R := 1125899906842624.
(** [y] differs from [phi] by whole turns, up to a tolerance. *)
Definition turned (phi y tol : R) : Prop := exists k : Z, Rabs (y - (phi + IZR k * (2 * PI))) <= tol.
(** What the rounding errors of the loops add up to at most. *)
Definition turn_error (lo hi phi : R) : R := (Rabs phi + Rabs lo + Rabs hi + 16) ^ 2 / 4503599627370496.
