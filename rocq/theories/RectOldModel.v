(** Model of RectangularPadRowLayout::getNearestPadOld, /repo/src/gearimpl/RectangularPadRowLayout.cc
    296-353, declared in /repo/include/gear/gearimpl/RectangularPadRowLayout.h 190. *)
From Coq Require Import ZArith List String Bool Reals.
From Verif Require Import Base RBase RectModel.
Import ListNotations.
Open Scope R_scope.

(** the loop over the rows, RectangularPadRowLayout.cc 311-333: [rows] are the rows from number [i] on,
    [dMin] and [rowNum] what has been found so far; the result is the final [rowNum] *)
Fixpoint old_scan (l : rect) (x y : R) (rows : list Row) (i : Z) (dMin : R) (rowNum : Z) : Z :=
  match rows with
  | [] => rowNum
  | row :: rest =>
      let xmin := ext0 l + LeftOffset row in                                      (* 315 *)
      let xmax := ext1 l - RightOffset row in                                     (* 316 *)
      let ymin := Center row - PadHeight row / 2 in                               (* 317 *)
      let ymax := Center row + PadHeight row / 2 in                               (* 318 *)
      let d := distanceToBox x y xmin ymin xmax ymax in
      if Rltb d dMin                                                              (* 324 *)
      then if Rltb d 0 then i                                                     (* 330: break *)
           else old_scan l x y rest (i + 1) d i                                   (* 326-327 *)
      else old_scan l x y rest (i + 1) dMin rowNum
  end.

(** the column in the row, RectangularPadRowLayout.cc 340-351; a division by zero is [UB], because its
    quotient is converted to int *)
Definition old_pad (l : rect) (row : Row) (x : R) : result Z :=
  if Rltb x (ext0 l + LeftOffset row) then Ok 0%Z                                 (* 340-342 *)
  else if Rleb (ext1 l - RightOffset row) x then Ok (NPad row - 1)%Z              (* 344-346 *)
  else if Reqb (WidthPerPad row) 0 then UB
  else to_int ((x - (ext0 l + LeftOffset row)) / WidthPerPad row).                (* 350 *)

(** getNearestPadOld, RectangularPadRowLayout.cc 296-353.  [_rows[0]] of a layout without rows is [UB]. *)
Definition getNearestPadOld (l : rect) (x y : R) : result Z :=
  let x := clamp_lo x (ext0 l) in                                                 (* 299 *)
  let x := clamp_hi x (ext1 l) in
  let y := clamp_lo y (ext2 l) in
  let y := clamp_hi y (ext3 l) in                                                 (* 302 *)
  let rowNum := old_scan l x y (_rows l) 0 (2 * (ext3 l - ext2 l)) 0 in           (* 304-333 *)
  rbind (sub (_rows l) rowNum) (fun row =>                                        (* 338 *)
  rbind (old_pad l row x) (fun padNum => getPadIndex l rowNum padNum)).           (* 353 *)
