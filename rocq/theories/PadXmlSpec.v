(** What it takes for a pad layout to survive being saved and loaded. *)
From Coq Require Import ZArith List String Bool Reals.
From Verif Require Import Base RBase NumModel NumSpec DiskBase FpsModel DiskSpec VdModel.
From Verif Require Import RectModel.
Import ListNotations.
Open Scope R_scope.

(** all numbers that describe a row of a rectangular layout come back from their texts *)
Definition kept_row (r : Row) : Prop :=
  is_int (NPad r) /\ kept (PadWidth r) /\ kept (PadHeight r) /\ kept (Height r) /\ kept (LeftOffset r) /\ kept (RightOffset r).

(** the same for the numbers a disk of equal pads is described by *)
Definition kept_fps (l : fps) : Prop :=
  kept (f_rMin l) /\ kept (f_rMax l) /\ kept (f_padHeight l) /\ kept (f_padWidth l) /\ kept (f_padGap l) /\ kept (f_phiMax l).

(** the sum of the first [k] numbers *)
Definition sum_first (k : nat) (v : list Z) : Z := fold_right Z.add 0%Z (firstn k v).

(** two rectangular layouts give the same answers about rows and pads *)
Definition same_pads (l l' : rect) : Prop :=
  getPlaneExtent l' = getPlaneExtent l /\ getNRows l' = getNRows l /\
  (forall r, getRowHeight l' r = getRowHeight l r) /\ (forall i, getRowNumber l' i = getRowNumber l i) /\
  (forall r p, getPadIndex l' r p = getPadIndex l r p) /\ (forall i, getPadHeight l' i = getPadHeight l i) /\
  (forall i, getPadWidth l' i = getPadWidth l i) /\ (forall i, getPadPitch l' i = getPadPitch l i) /\
  (forall i, getPadCenter l' i = getPadCenter l i) /\ (forall i, getRightNeighbour l' i = getRightNeighbour l i) /\
  (forall i, getLeftNeighbour l' i = getLeftNeighbour l i) /\ (forall n x y, getNearestPad n l' x y = getNearestPad n l x y) /\
  (forall x y i, isInsidePad l' x y i = isInsidePad l x y i) /\ (forall x y i, getDistanceToPad l' x y i = getDistanceToPad l x y i).
