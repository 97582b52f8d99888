(** Specification vocabulary: the cell of a pad of a versatile disk layout, made larger by a little less than a millionth. *)
From Coq Require Import ZArith Reals.
From Verif Require Import Base RBase NumSpec DiskSpec FpModel FpVdSpec.
Open Scope R_scope.
Definition near_pad_vd (rMin : R) (a : vd_args) (i j : Z) (r phi : R) : Prop :=
  let h := va_height a in let w := pad_w rMin a i in
  rMin + IZR i * h - h / 1300000 <= r <= rMin + (IZR i + 1) * h + h / 1300000 /\
  IZR j * w - w / 1300000 <= phi <= (IZR j + 1) * w + w / 1300000.
