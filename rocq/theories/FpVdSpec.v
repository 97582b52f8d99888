(** Specification vocabulary for rows of a versatile disk layout in the arithmetic of the machine. *)
From Coq Require Import ZArith Reals.
From Verif Require Import Base RBase NumSpec DiskSpec FpModel VdModel FpVdModel.
Open Scope R_scope.

(** A layout from radius [rMin] with the rows of one call of addRow, repeated as often as the call says. *)
Definition vd_made_d (rMin : R) (a : vd_args) (l : vd) : Prop :=
  vd_addRow_d (new_vd rMin) (va_nPads a) (va_pitch a) (va_height a) (va_offset a) (va_padWidth a) (va_padHeight a) (va_repeat a) = SOk l tt.
Definition vd_limits (rMin : R) (a : vd_args) : Prop :=
  0 <= rMin /\ / 1000 <= va_height a <= 1000000 /\ / 1000 <= va_pitch a /\ va_offset a = 0 /\ (va_nPads a <= 65536)%Z /\ (va_repeat a <= 4096)%Z /\
  rMin + IZR (va_repeat a) * va_height a <= 100000 * va_height a.
(** Middle radius of row [i], angle of one of its pads. *)
Definition mid_r (rMin : R) (a : vd_args) (i : Z) : R := rMin + (IZR i + 1 / 2) * va_height a.
Definition pad_w (rMin : R) (a : vd_args) (i : Z) : R := va_pitch a / mid_r rMin a i.
(** Inside pad [j] of row [i], at least a millionth of its size away from the edges. *)
Definition well_inside_vd (rMin : R) (a : vd_args) (i j : Z) (r phi : R) : Prop :=
  let h := va_height a in let w := pad_w rMin a i in
  rMin + IZR i * h + h / 1000000 <= r <= rMin + (IZR i + 1) * h - h / 1000000 /\
  IZR j * w + w / 1000000 <= phi <= (IZR j + 1) * w - w / 1000000.
