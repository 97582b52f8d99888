(** Specification vocabulary for getNearestPadOld. *)
From Coq Require Import ZArith List Reals.
From Verif Require Import RectSpec.
Import ListNotations.
Open Scope R_scope.

(** [row_dist x0 x1 y0 E i s x y d]: [d] is the distance of (x,y) from the pads of row [i], which is [s]:
    the box between the offsets of the row that is as high as its pads and lies in the middle of it. *)
Definition row_dist (x0 x1 y0 : R) (E : list srow) (i : nat) (s : srow) (x y d : R) : Prop :=
  let mid := bottom y0 E i + s_h s / 2 in
  is_box_dist x y (x0 + s_left s) (mid - s_padH s / 2) (x1 - s_right s) (mid + s_padH s / 2) d.
