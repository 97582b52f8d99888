(** Specification vocabulary for pads of fixed size in the arithmetic of the machine. *)
From Coq Require Import ZArith Reals.
From Verif Require Import Base RBase NumSpec DiskSpec FpModel FpsModel FpFpsModel.
Open Scope R_scope.

(** [l] was constructed from [a]. *)
Definition fps_made_d (a : fps_args) (l : fps) : Prop :=
  exists fuel, new_fps_d fuel (fa_rMin a) (fa_rMax a) (fa_padHeight a) (fa_padWidth a) (fa_nRow a) (fa_padGap a) (fa_phiMax a) = Some (Ok l).
(** Row [i] has [np] pads: getPadIndex accepts the pad numbers below [np] and no others. *)
Definition row_has (l : fps) (i np : Z) : Prop := forall j, (0 <= j)%Z -> ((exists p, fps_getPadIndex l i j = Ok p) <-> (j < np)%Z).
(** A ring, and an opening angle of at most one turn, which in doubles is a little less than a full one. *)
Definition ring (a : fps_args) : Prop := 0 <= fa_rMin a < fa_rMax a /\ / 1000 <= fa_phiMax a <= two_pi /\ is_double (fa_phiMax a).
(** Rows are not too thin. *)
Definition row_h (a : fps_args) (l : fps) : R := (fa_rMax a - fa_rMin a) / IZR (fps_getNRows l).
Definition rows_ok (a : fps_args) (l : fps) : Prop := (fps_getNRows l <= 65536)%Z /\ / 1000 <= row_h a l.
(** Inside pad [j] of [np] of row [i], at least a millionth of its size away from the edges. *)
Definition well_inside_fps (a : fps_args) (l : fps) (i np j : Z) (r phi : R) : Prop :=
  let h := row_h a l in let w := fa_phiMax a / IZR np in
  fa_rMin a + IZR i * h + h / 1000000 <= r <= fa_rMin a + (IZR i + 1) * h - h / 1000000 /\
  IZR j * w + w / 1000000 <= phi <= (IZR j + 1) * w - w / 1000000.
