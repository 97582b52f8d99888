(** isInsidePad of FixedPadAngleDiskLayout in the arithmetic of the machine: every operation on doubles is rounded to the nearest double (overflow left out). *)
From Coq Require Import ZArith Bool Reals.
From Verif Require Import Base RBase NumModel FpModel FpaModel FpFpaModel.
Open Scope R_scope.

(** isInsidePad(r,phi,padIndex), FixedPadAngleDiskLayout.cc 325-341 *)
Definition fpa_isInsidePad_d (l : fpa) (r phi : R) (i : Z) : bool :=
  let c := fpa_getPadCenter_d l i in                                                              (* 334 *)
  negb (Rltb r (fsub (fst c) (fdiv (p_rowHeight l) 2)) || Rltb (fadd (fst c) (fdiv (p_rowHeight l) 2)) r   (* 336 *)
        || Rltb phi (fsub (snd c) (fdiv (p_padAngle l) 2)) || Rltb (fadd (snd c) (fdiv (p_padAngle l) 2)) phi)%bool.   (* 337 *)
(** isInsidePad(r,phi), FixedPadAngleDiskLayout.cc 343-349: comparisons only *)
Definition fpa_isInsideAnyPad_d (l : fpa) (r phi : R) : bool :=
  negb (Rltb r (p_rMin l) || Rltb (p_rMax l) r || Rltb phi (p_phiMin l) || Rltb (p_phiMax l) phi)%bool.
