(** Model of the loops that bring an angle into range, in double arithmetic.
    Everywhere else doubles are real numbers; here every sum, difference and quotient is rounded to the nearest
    double (ties to even), as on the platforms the library runs on.  Overflow to infinity is left out: no value
    here exceeds its arguments by more than a factor of two. *)
From Coq Require Import ZArith List Bool Reals.
From Flocq Require Import Core.Raux.
From Verif Require Import Base RBase NumModel.
Import ListNotations.
Open Scope R_scope.

Definition fadd (x y : R) : R := to_double (x + y).
Definition fsub (x y : R) : R := to_double (x - y).
Definition fdiv (x y : R) : R := to_double (x / y).
(** M_PI, the double closest to pi, and 2*M_PI (the doubling is exact) *)
Definition m_pi : R := 884279719003555 / 281474976710656.
Definition two_pi : R := 884279719003555 / 140737488355328.

(** while( phi < lo ) { phi += 2. * M_PI ; }    [None]: still running after [fuel] turns *)
Fixpoint loop_up (fuel : nat) (lo phi : R) : option R :=
  if Rltb phi lo then match fuel with O => None | S k => loop_up k lo (fadd phi two_pi) end else Some phi.
(** while( phi > hi ) { phi -= 2. * M_PI ; } *)
Fixpoint loop_down (fuel : nat) (hi phi : R) : option R :=
  if Rltb hi phi then match fuel with O => None | S k => loop_down k hi (fsub phi two_pi) end else Some phi.
(** the two loops one after the other *)
Definition wrap (fuel : nat) (lo hi phi : R) : option R :=
  match loop_up fuel lo phi with Some y => loop_down fuel hi y | None => None end.

(** VersatileDiskRowLayout.cc 390-391 (Row::getNearestPad), 419-420, 460-461, 484-485;
    FixedPadSizeDiskLayout.cc 273-274 (getNearestPad, full circle), 513-514, 544-545 *)
Definition wrap_circle (fuel : nat) (phi : R) : option R := wrap fuel 0 two_pi phi.
(** FixedPadSizeDiskLayout.cc 54-55 (constructor), 278-279 (getNearestPad, not a full circle) *)
Definition wrap_two_turns (fuel : nat) (phi : R) : option R := wrap fuel (- two_pi) two_pi phi.
(** FixedPadAngleDiskLayout.cc 217-221 (getNearestPad), given the mean angle *)
Definition wrap_around (fuel : nat) (mean phi : R) : option R := wrap fuel (fsub mean m_pi) (fadd mean m_pi) phi.
