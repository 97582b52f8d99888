(** Specification vocabulary: the area of a pad of fixed size, with a margin given as a fraction of the size of its cell. *)
From Coq Require Import ZArith Reals.
From Verif Require Import Base RBase NumSpec DiskSpec FpModel FpsModel FpFpsModel FpFpsSpec.
Open Scope R_scope.

(** The radius at the middle of row [i]. *)
Definition mid_radius (a : fps_args) (l : fps) (i : Z) : R := fa_rMin a + (IZR i + 1 / 2) * row_h a l.
(** The pad has the height and the width asked for and lies in the middle of its cell; the cells of a row share the opening angle evenly. *)
Definition on_pad_area (margin : R) (a : fps_args) (l : fps) (i np j : Z) (r phi : R) : Prop :=
  let w := fa_phiMax a / IZR np in
  Rabs (r - mid_radius a l i) <= fa_padHeight a / 2 + margin * row_h a l /\
  Rabs (phi - (IZR j + 1 / 2) * w) <= fa_padWidth a / mid_radius a l i / 2 + margin * w.
(** Sizes for which a millionth is enough of a margin. *)
Definition sizes_ok (a : fps_args) (l : fps) : Prop :=
  fa_rMax a <= 100000000 * row_h a l /\ fa_padHeight a <= fa_rMax a /\ 0 <= fa_padGap a /\ / 1000000 <= fa_padWidth a + fa_padGap a <= 1000000.
