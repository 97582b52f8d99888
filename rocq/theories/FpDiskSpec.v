(** Specification vocabulary: a point on a pad of a disk layout, up to a millionth of the pad's size. *)
From Coq Require Import ZArith Reals.
From Verif Require Import Base RBase NumSpec DiskSpec FpModel FpsModel FpFpaSpec FpFpsSpec.
Open Scope R_scope.

Definition on_pad_fpa (a : fpa_args) (i j : Z) (r phi : R) : Prop :=
  fpa_r a i - row_height a / 1000000 <= r <= fpa_r a (i + 1) + row_height a / 1000000 /\
  fpa_phi a j - pad_angle a / 1000000 <= phi <= fpa_phi a (j + 1) + pad_angle a / 1000000.
Definition on_pad_fps (a : fps_args) (l : fps) (i np j : Z) (r phi : R) : Prop :=
  let h := row_h a l in let w := fa_phiMax a / IZR np in
  fa_rMin a + IZR i * h - h / 1000000 <= r <= fa_rMin a + (IZR i + 1) * h + h / 1000000 /\
  IZR j * w - w / 1000000 <= phi <= (IZR j + 1) * w + w / 1000000.
(** Every row has pads. *)
Definition rows_filled (l : fps) : Prop := forall i, (0 <= i < fps_getNRows l)%Z -> exists np, row_has l i np /\ (0 < np <= 65536)%Z.
