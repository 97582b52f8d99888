(** ZPlanarLayerLayoutImpl::getMaxRadius again, and the test with it in ZPlanarParametersImpl::isPointInLadder, in the arithmetic of
    the machine: operations on doubles are rounded to the nearest double, those on floats to the nearest float (ties to even).
    Since <math.h> is included in C++, sqrt of a float is a float.  Simplification: overflow to infinity is left out. *)
From Coq Require Import ZArith Reals.
From Flocq Require Import Core.
From Verif Require Import Base RBase VecModel NumModel FpModel ZpModel.
Open Scope R_scope.

(** the nearest float: 24 bits *)
Definition to_float (x : R) : R := round radix2 (FLT_exp (-149) 24) ZnearestE x.
(** getMaxRadius, ZPlanarLayerLayout.cc 59-64 *)
Definition fmaxRadius (l : zlayer) : R :=
  let d := to_float (fadd (zl_d l) (zl_t l)) in
  let w := to_float (fadd (fdiv (zl_w l) 2) (Rabs (zl_off l))) in
  to_float (sqrt (to_float (to_float (d * d) + to_float (w * w)))).
(** 49-57 *)
Definition fzp_getMaxRadius (p : zplanar) (i : Z) (sensitive : bool) : result R :=
  rmap fmaxRadius (at_ (if sensitive then z_s p else z_l p) i).

(** isPointInLadder, ZPlanarParametersImpl.cc 44: the distance of the point from the axis *)
Definition pRadius (p : vec) : R := to_double (sqrt (fadd (to_double (vx p * vx p)) (to_double (vy p * vy p)))).
(** _EPSILON, line 5 *)
Definition fEPSILON : R := to_double (1 / 10000).
(** lines 51-73: whether the loop skips the layer [l] because of one of the quick checks: the point is nearer to the axis than
    the layer, farther from it, or beyond its ends.  The lines use the ladders or their sensitive parts as asked for. *)
Definition quick_skip (gap : R) (l : zlayer) (p : vec) : bool :=
  if Rlt_dec (pRadius p) (fsub (zl_d l) fEPSILON) then true
  else if Rlt_dec (fadd (fmaxRadius l) fEPSILON) (pRadius p) then true
  else if Rlt_dec (fadd (fadd (zl_len l) (fdiv gap 2)) fEPSILON) (Rabs (vz p)) then true
  else false.
Definition zp_skips (z : zplanar) (i : Z) (sensitive : bool) (p : vec) : result bool :=
  rmap (fun l => quick_skip (z_gap z) l p) (at_ (if sensitive then z_s z else z_l z) i).
