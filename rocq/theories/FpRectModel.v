(** Model of RectangularPadRowLayout in double arithmetic (src/gearimpl/RectangularPadRowLayout.cc).
    RectModel.v takes doubles as real numbers; here every sum, difference, product and quotient is rounded to
    the nearest double, as on the platforms the library runs on.  The data members and the functions without
    arithmetic on doubles (getRowNumber, getPadNumber, getPadIndex, the accessors) are those of RectModel.v.
    Overflow to infinity is left out: the theorems bound the sizes. *)
From Coq Require Import ZArith List String Bool Reals.
From Flocq Require Import Core.Raux.
From Verif Require Import Base RBase NumModel FpModel RectModel RectSpec.
Import ListNotations.
Open Scope R_scope.

Definition fmul (x y : R) : R := to_double (x * y).

(** loop of addRow, RectangularPadRowLayout.cc 119-128 *)
Fixpoint dpush_rows (n : nat) (row : Row) (l : rect) : rect :=
  match n with
  | O => l
  | S n' =>
      let row := mkRow (NPad row) (PadWidth row) (PadHeight row) (Height row) (LeftOffset row)
                       (RightOffset row) (fadd (ext3 l) (fdiv (Height row) 2)) (WidthPerPad row) in  (* 121 *)
      dpush_rows n' row
        (mkRect (_nRow l) (_nPad l) (_repeatRows l) (_rows l ++ [row]) (ext0 l) (ext1 l) (ext2 l)
                (fadd (ext3 l) (Height row)) (_padIndices l ++ [None]) (_nRows l))                    (* 123-127 *)
  end.

(** addRow, RectangularPadRowLayout.cc 60-132; a failing assert (66-72) is [SUB] *)
Definition daddRow (l : rect) (nRow nPad : Z) (padWidth padHeight rowHeight leftOffset rightOffset : R)
  : sres rect unit :=
  if negb ((0 <? nRow)%Z && (0 <? nPad)%Z && negb (Rltb padWidth 0) && negb (Rltb padHeight 0) &&
           negb (Rltb rowHeight 0) && negb (Rltb leftOffset 0) && negb (Rltb rightOffset 0))%bool
  then SUB                                                                        (* 66-72 *)
  else
    let xMin := fadd (ext0 l) leftOffset in                                       (* 75 *)
    let xMax := fsub (ext1 l) rightOffset in                                      (* 76 *)
    let rowWidth := fsub xMax xMin in                                             (* 78 *)
    if Rltb rowWidth (fmul (IZR nPad) padWidth)                                   (* 80 *)
    then SThrow l (EGear "RectangularPadRowLayout::addRow: can't fit")            (* 87 *)
    else
      let l := mkRect (_nRow l) (_nPad l + Z.abs nRow * Z.abs nPad) (_repeatRows l) (_rows l)
                      (ext0 l) (ext1 l) (ext2 l) (ext3 l) (_padIndices l) (_nRows l) in  (* 92 *)
      let widthPerPad := fdiv rowWidth (IZR nPad) in                              (* 94 *)
      let rowHeight := if Reqb rowHeight 0 then padHeight else rowHeight in       (* 96-97 *)
      if Rltb rowHeight padHeight                                                 (* 99 *)
      then SThrow l (EGear "RectangularPadRowLayout::addRow: row height")         (* 105 *)
      else
        let row := mkRow nPad padWidth padHeight rowHeight leftOffset rightOffset 0 widthPerPad in
        let l := dpush_rows (Z.to_nat nRow) row l in                              (* 119-128 *)
        SOk (mkRect (_nRow l) (_nPad l) (_repeatRows l) (_rows l) (ext0 l) (ext1 l) (ext2 l) (ext3 l)
                    (_padIndices l) (_nRows l ++ [nRow])) tt.                     (* 130 *)

(** loops of repeatRows, RectangularPadRowLayout.cc 143-152 *)
Fixpoint drepeat_inner (n : nat) (j : nat) (l : rect) : sres rect unit :=
  match n with
  | O => SOk l tt
  | S n' =>
      match nth_error (_rows l) j with
      | None => SUB
      | Some r =>
          match daddRow l 1 (NPad r) (PadWidth r) (PadHeight r) (Height r) (LeftOffset r) (RightOffset r) with
          | SOk l' _ => drepeat_inner n' (S j) l'
          | e => e
          end
      end
  end.
Fixpoint drepeat_outer (m : nat) (nRow : nat) (l : rect) : sres rect unit :=
  match m with
  | O => SOk l tt
  | S m' => match drepeat_inner nRow 0 l with SOk l' _ => drepeat_outer m' nRow l' | e => e end
  end.
(** repeatRows(unsigned count), RectangularPadRowLayout.cc 134-153; [count-1] is unsigned *)
Definition drepeatRows (l : rect) (count : Z) : sres rect unit :=
  if (0 <? _repeatRows l)%Z then SOk l tt                                         (* 136-137 *)
  else
    let l := mkRect (_nRow l) (_nPad l) (int32 count) (_rows l) (ext0 l) (ext1 l) (ext2 l) (ext3 l)
                    (_padIndices l) (_nRows l) in                                 (* 139 *)
    drepeat_outer (Z.to_nat (uint32 (count - 1))) (List.length (_rows l)) l.      (* 141-152 *)

(** getPadCenter, RectangularPadRowLayout.cc 186-198 *)
Definition dgetPadCenter (l : rect) (i : Z) : result (R * R) :=
  rmap (fun row =>
          (fadd (fadd (fadd (ext0 l) (LeftOffset row)) (fmul (IZR (getPadNumber i)) (WidthPerPad row)))
                (fdiv (WidthPerPad row) 2),
           Center row))
       (row_of l i).

(** the row search of getNearestPad, RectangularPadRowLayout.cc 369-429.  One unit of fuel is one turn of
    [while(true)]; [None] means the loop has not ended. A row subscript outside the vector is [UB]; so is a
    division by zero, because its quotient is converted to int. *)
Fixpoint dsearch_row (fuel : nat) (l : rect) (y : R) (row_number : Z) : option (result Z) :=
  match fuel with
  | O => None
  | S fuel' =>
      match nthZ (_rows l) row_number with
      | None => Some UB                                                           (* 371 *)
      | Some row =>
          let y_displacement := fsub y (Center row) in                            (* 372 *)
          if Rleb (Rabs y_displacement) (fdiv (PadHeight row) 2) then Some (Ok row_number)  (* 376-380 *)
          else if Rleb (Rabs y_displacement) (fdiv (Height row) 2) then           (* 381 *)
            let next_row_number :=
              if Rltb y_displacement 0 then (row_number - 1)%Z else (row_number + 1)%Z in  (* 384 *)
            match nthZ (_rows l) next_row_number with
            | None => Some UB                                                     (* 385 *)
            | Some next_row =>
                let d := fsub (Rabs y_displacement) (fdiv (PadHeight row) 2) in   (* 387 *)
                let dn := fsub (Rabs (fsub y (Center next_row))) (fdiv (PadHeight next_row) 2) in  (* 388 *)
                Some (Ok (if Rltb dn d then next_row_number else row_number))     (* 390-391 *)
            end
          else
            let neg := Rltb y_displacement 0 in
            let remaining_rows :=
              if neg then row_number else (Z.of_nat (List.length (_rows l)) - row_number - 1)%Z in
            let remaining_distance :=
              if neg then fsub (fsub (Center row) (ext2 l)) (fdiv (Height row) 2)
              else fsub (fsub (ext3 l) (Center row)) (fdiv (Height row) 2) in     (* 402, 408 *)
            let offset :=
              if neg then fadd y_displacement (fdiv (Height row) 2)
              else fsub y_displacement (fdiv (Height row) 2) in                   (* 403, 409 *)
            if Reqb remaining_distance 0 then Some UB
            else
              let param := fmul (IZR remaining_rows) (fdiv offset remaining_distance) in  (* 412 *)
              let delta_row := if Rltb param 0 then Zfloor param else Zceil param in (* 413 *)
              if int_okb delta_row then
                if (delta_row =? 0)%Z then Some (Ok row_number)                   (* 415-422 *)
                else dsearch_row fuel' l y (row_number + delta_row)               (* 424 *)
              else Some UB
      end
  end.

(** the choice of the pad in a row, RectangularPadRowLayout.cc 432-449 *)
Definition dpad_in_row (l : rect) (row : Row) (x : R) : result Z :=
  if Rleb x (fadd (ext0 l) (LeftOffset row)) then Ok 0%Z                          (* 437-439 *)
  else if Rleb (fsub (ext1 l) (RightOffset row)) x then Ok (NPad row - 1)%Z       (* 441-443 *)
  else if Reqb (WidthPerPad row) 0 then UB
  else to_int (fdiv (fsub x (fadd (ext0 l) (LeftOffset row))) (WidthPerPad row)). (* 447 *)

(** the first guess of the row, RectangularPadRowLayout.cc 366 *)
Definition dguess (l : rect) (y : R) : Z :=
  c_round (fdiv (fmul (IZR (Z.of_nat (List.length (_rows l)) - 1)) (fsub y (ext2 l))) (fsub (ext3 l) (ext2 l))).

(** getNearestPad, RectangularPadRowLayout.cc 357-452.  [None]: not finished within the fuel. *)
Definition dgetNearestPad (fuel : nat) (l : rect) (x y : R) : option (result Z) :=
  let x := clamp_lo x (ext0 l) in
  let x := clamp_hi x (ext1 l) in
  let y := clamp_lo y (ext2 l) in
  let y := clamp_hi y (ext3 l) in
  if Reqb (fsub (ext3 l) (ext2 l)) 0 then Some UB                                 (* 366: 0/0 to int *)
  else
    match (if int_okb (dguess l y) then dsearch_row fuel l y (dguess l y) else Some UB) with
    | None => None
    | Some (Ok rn) =>
        Some (rbind (sub (_rows l) rn) (fun row =>                                (* 435 *)
              rbind (dpad_in_row l row x) (fun pn => getPadIndex l rn pn)))       (* 451 *)
    | Some (Throw e) => Some (Throw e)
    | Some UB => Some UB
    end.

(** isInsidePad(x,y,padIndex), RectangularPadRowLayout.cc 485-500 *)
Definition disInsidePad (l : rect) (x y : R) (i : Z) : result bool :=
  let pn := IZR (getPadNumber i) in
  rmap (fun row =>
    let left := fadd (ext0 l) (LeftOffset row) in
    let gap := fdiv (fsub (WidthPerPad row) (PadWidth row)) 2 in
    let pXMin := fadd (fadd left (fmul pn (WidthPerPad row))) gap in              (* 493 *)
    let pXMax := fsub (fadd left (fmul (pn + 1) (WidthPerPad row))) gap in        (* 494 *)
    let pYMin := fsub (Center row) (fdiv (PadHeight row) 2) in                    (* 495 *)
    let pYMax := fadd (Center row) (fdiv (PadHeight row) 2) in                    (* 496 *)
    (Rleb pXMin x && Rleb x pXMax && Rleb pYMin y && Rleb y pYMax)%bool)
  (row_of l i).
