(** Model of RectangularPadRowLayout (src/gearimpl/RectangularPadRowLayout.cc,
    include/gear/gearimpl/RectangularPadRowLayout.h).  Doubles are reals; int sums are unbounded
    (no overflow of [_nPad]); the 32-bit wrap of pad indices is explicit. *)
From Coq Require Import ZArith List String Bool Reals.
From Flocq Require Import Core.Raux Core.Generic_fmt.
From Verif Require Import Base RBase.
Import ListNotations.
Open Scope R_scope.

(** struct Row, RectangularPadRowLayout.h 31-40 *)
Record Row := mkRow {
  NPad : Z; PadWidth : R; PadHeight : R; Height : R;
  LeftOffset : R; RightOffset : R; Center : R; WidthPerPad : R }.

(** data members, RectangularPadRowLayout.h 44-50.  [_extent] is split into its four entries.
    [_padIndices] holds for every row either nothing or the cached vector. *)
Record rect := mkRect {
  _nRow : Z; _nPad : Z; _repeatRows : Z; _rows : list Row;
  ext0 : R; ext1 : R; ext2 : R; ext3 : R;
  _padIndices : list (option (list Z)); _nRows : list Z }.

(** constructor, RectangularPadRowLayout.cc 15-27 *)
Definition new_rect (xMin xMax yMin : R) : rect :=
  mkRect 0 0 0 [] xMin xMax yMin yMin [] [].

(** clone, copy constructor and copy_and_assign, RectangularPadRowLayout.cc 29-58: the cache gets
    [_nRow] empty entries *)
Definition clone (l : rect) : rect :=
  mkRect (_nRow l) (_nPad l) (_repeatRows l) (_rows l) (ext0 l) (ext1 l) (ext2 l) (ext3 l)
         (repeat None (Z.to_nat (_nRow l))) (_nRows l).

(** loop of addRow, RectangularPadRowLayout.cc 119-128 *)
Fixpoint push_rows (n : nat) (row : Row) (l : rect) : rect :=
  match n with
  | O => l
  | S n' =>
      let row := mkRow (NPad row) (PadWidth row) (PadHeight row) (Height row) (LeftOffset row)
                       (RightOffset row) (ext3 l + Height row / 2) (WidthPerPad row) in
      push_rows n' row
        (mkRect (_nRow l) (_nPad l) (_repeatRows l) (_rows l ++ [row]) (ext0 l) (ext1 l) (ext2 l)
                (ext3 l + Height row) (_padIndices l ++ [None]) (_nRows l))
  end.

(** addRow, RectangularPadRowLayout.cc 60-132.  A failing assert (66-72) is [SUB]: it aborts the
    program, or, compiled with NDEBUG, the call goes on with meaningless sizes. *)
Definition addRow (l : rect) (nRow nPad : Z) (padWidth padHeight rowHeight leftOffset rightOffset : R)
  : sres rect unit :=
  if negb ((0 <? nRow)%Z && (0 <? nPad)%Z && negb (Rltb padWidth 0) && negb (Rltb padHeight 0) &&
           negb (Rltb rowHeight 0) && negb (Rltb leftOffset 0) && negb (Rltb rightOffset 0))%bool
  then SUB                                                                        (* 66-72 *)
  else
    let xMin := ext0 l + leftOffset in                                            (* 75 *)
    let xMax := ext1 l - rightOffset in                                           (* 76 *)
    let rowWidth := xMax - xMin in                                                (* 78 *)
    if Rltb rowWidth (IZR nPad * padWidth)                                        (* 80 *)
    then SThrow l (EGear "RectangularPadRowLayout::addRow: can't fit")            (* 87 *)
    else
      let l := mkRect (_nRow l) (_nPad l + Z.abs nRow * Z.abs nPad) (_repeatRows l) (_rows l)
                      (ext0 l) (ext1 l) (ext2 l) (ext3 l) (_padIndices l) (_nRows l) in  (* 92 *)
      let widthPerPad := rowWidth / IZR nPad in                                   (* 94 *)
      let rowHeight := if Reqb rowHeight 0 then padHeight else rowHeight in       (* 96-97 *)
      if Rltb rowHeight padHeight                                                 (* 99 *)
      then SThrow l (EGear "RectangularPadRowLayout::addRow: row height")         (* 105 *)
      else
        let row := mkRow nPad padWidth padHeight rowHeight leftOffset rightOffset 0 widthPerPad in
        let l := push_rows (Z.to_nat nRow) row l in                               (* 119-128 *)
        SOk (mkRect (_nRow l) (_nPad l) (_repeatRows l) (_rows l) (ext0 l) (ext1 l) (ext2 l) (ext3 l)
                    (_padIndices l) (_nRows l ++ [nRow])) tt.                     (* 130 *)

(** inner loop of repeatRows, RectangularPadRowLayout.cc 144-151: rows [j .. j+n-1] *)
Fixpoint repeat_inner (n : nat) (j : nat) (l : rect) : sres rect unit :=
  match n with
  | O => SOk l tt
  | S n' =>
      match nth_error (_rows l) j with
      | None => SUB
      | Some r =>
          match addRow l 1 (NPad r) (PadWidth r) (PadHeight r) (Height r) (LeftOffset r)
                       (RightOffset r) with
          | SOk l' _ => repeat_inner n' (S j) l'
          | e => e
          end
      end
  end.

(** outer loop of repeatRows, RectangularPadRowLayout.cc 143-152 *)
Fixpoint repeat_outer (m : nat) (nRow : nat) (l : rect) : sres rect unit :=
  match m with
  | O => SOk l tt
  | S m' => match repeat_inner nRow 0 l with SOk l' _ => repeat_outer m' nRow l' | e => e end
  end.

(** repeatRows(unsigned count), RectangularPadRowLayout.cc 134-153; [count-1] is unsigned *)
Definition repeatRows (l : rect) (count : Z) : sres rect unit :=
  if (0 <? _repeatRows l)%Z then SOk l tt                                         (* 136-137 *)
  else
    let l := mkRect (_nRow l) (_nPad l) (int32 count) (_rows l) (ext0 l) (ext1 l) (ext2 l) (ext3 l)
                    (_padIndices l) (_nRows l) in                                 (* 139 *)
    repeat_outer (Z.to_nat (uint32 (count - 1))) (List.length (_rows l)) l.       (* 141-152 *)

(** getNRows, RectangularPadRowLayout.cc 155-157 *)
Definition getNRows (l : rect) : Z := Z.of_nat (List.length (_rows l)).
(** getNPads, RectangularPadRowLayout.h 133 *)
Definition getNPads (l : rect) : Z := _nPad l.
(** getRepeatRowCount, RectangularPadRowLayout.h 103 *)
Definition getRepeatRowCount (l : rect) : Z := _repeatRows l.
(** getPlaneExtent, RectangularPadRowLayout.h 171 *)
Definition getPlaneExtent (l : rect) : list R := [ext0 l; ext1 l; ext2 l; ext3 l].
(** getRowHeight, RectangularPadRowLayout.cc 159-161 *)
Definition getRowHeight (l : rect) (rowNumber : Z) : result R := rmap Height (at_ (_rows l) rowNumber).

(** getRowNumber, RectangularPadRowLayout.cc 256-271.  0xffff0000 is unsigned, so the index is
    converted to unsigned first and the shift is logical. *)
Definition getRowNumber (l : rect) (padIndex : Z) : result Z :=
  let rn := Z.shiftr (Z.land 4294901760 (uint32 padIndex)) 16 in
  if ((rn <? 0)%Z || (Z.of_nat (List.length (_rows l)) - 1 <? rn)%Z)%bool
  then Throw (EGear "RectangularPadRowLayout::getRowNumber: illegal rownumber")
  else Ok rn.

(** getPadNumber, RectangularPadRowLayout.h 179 *)
Definition getPadNumber (padIndex : Z) : Z := Z.land 65535 padIndex.

(** getPadIndex, RectangularPadRowLayout.cc 274-294.  The comparison in 277 is in 64-bit unsigned
    arithmetic: with no rows [size()-1] is 2^64-1 and the test passes, so line 282 reads a row that
    does not exist. *)
Definition getPadIndex (l : rect) (rowNum padNum : Z) : result Z :=
  if ((Z.of_nat (List.length (_rows l)) - 1) mod 18446744073709551616 <? uint32 rowNum)%Z
  then Throw (EOutOfRange " RectangularPadRowLayout::getPadIndex row number too large !")
  else rbind (sub (_rows l) rowNum) (fun row =>
       if (NPad row - 1 <? padNum)%Z
       then Throw (EOutOfRange "RectangularPadRowLayout::getPadIndex: pad number too large")
       else Ok (int32 (Z.lor (Z.shiftl rowNum 16) (Z.land 65535 padNum)))).

(** getPadHeight, getPadWidth, getPadPitch, RectangularPadRowLayout.cc 163-183 *)
Definition row_of (l : rect) (padIndex : Z) : result Row :=
  rbind (getRowNumber l padIndex) (fun rn => sub (_rows l) rn).
Definition getPadHeight (l : rect) (i : Z) : result R := rmap PadHeight (row_of l i).
Definition getPadWidth (l : rect) (i : Z) : result R := rmap PadWidth (row_of l i).
Definition getPadPitch (l : rect) (i : Z) : result R := rmap WidthPerPad (row_of l i).

(** getPadCenter, RectangularPadRowLayout.cc 186-198 *)
Definition getPadCenter (l : rect) (i : Z) : result (R * R) :=
  rmap (fun row =>
          (ext0 l + LeftOffset row + IZR (getPadNumber i) * WidthPerPad row + WidthPerPad row / 2,
           Center row))
       (row_of l i).

(** getPadsInRow, RectangularPadRowLayout.cc 227-253: fills the cache on first use; every
    std::out_of_range inside gives the static empty vector.  An exception in line 241 leaves the
    partly filled vector in the cache; line 241 cannot throw there because [i < NPad]. *)
Fixpoint indices_from (l : rect) (row : Z) (k : nat) (i : Z) : result (list Z) :=
  match k with
  | O => Ok []
  | S k' => rbind (getPadIndex l row i) (fun p => rmap (cons p) (indices_from l row k' (i + 1)))
  end.
Definition set_cache (l : rect) (n : nat) (v : list Z) : rect :=
  mkRect (_nRow l) (_nPad l) (_repeatRows l) (_rows l) (ext0 l) (ext1 l) (ext2 l) (ext3 l)
         (firstn n (_padIndices l) ++ [Some v] ++ skipn (S n) (_padIndices l)) (_nRows l).
Definition getPadsInRow (l : rect) (row : Z) : sres rect (list Z) :=
  match nthZ (_padIndices l) row with
  | None => SOk l []                                                              (* 233, 245-248 *)
  | Some (Some v) => SOk l v                                                      (* 252 *)
  | Some None =>
      match nthZ (_rows l) row with
      | None => SOk l []                                                          (* 235 *)
      | Some r =>
          match indices_from l row (Z.to_nat (NPad r)) 0 with                     (* 239-242 *)
          | Ok v => SOk (set_cache l (Z.to_nat row) v) v
          | Throw _ => SOk l []
          | UB => SUB
          end
      end
  end.

(** clamping of a point to the plane, RectangularPadRowLayout.cc 299-302 and 360-363 *)
Definition clamp_lo (v lo : R) : R := if Rltb v lo then lo else v.
Definition clamp_hi (v hi : R) : R := if Rltb hi v then hi else v.

(** round() of <cmath>: nearest integer, halves away from zero *)
Definition c_round (d : R) : Z := Znearest (Zle_bool 0) d.

(** the row search of getNearestPad, RectangularPadRowLayout.cc 369-429.  One unit of fuel is one
    turn of [while(true)]; [None] means the loop has not ended. A row subscript outside the vector
    is [UB]; so is a division by zero, because its quotient is converted to int. *)
Fixpoint search_row (fuel : nat) (l : rect) (y : R) (row_number : Z) : option (result Z) :=
  match fuel with
  | O => None
  | S fuel' =>
      match nthZ (_rows l) row_number with
      | None => Some UB                                                           (* 371 *)
      | Some row =>
          let y_displacement := y - Center row in                                 (* 372 *)
          if Rleb (Rabs y_displacement) (PadHeight row / 2) then Some (Ok row_number)  (* 376-380 *)
          else if Rleb (Rabs y_displacement) (Height row / 2) then                (* 381 *)
            let next_row_number :=
              if Rltb y_displacement 0 then (row_number - 1)%Z else (row_number + 1)%Z in  (* 384 *)
            match nthZ (_rows l) next_row_number with
            | None => Some UB                                                     (* 385 *)
            | Some next_row =>
                let d := Rabs y_displacement - PadHeight row / 2 in               (* 387 *)
                let dn := Rabs (y - Center next_row) - PadHeight next_row / 2 in  (* 388 *)
                Some (Ok (if Rltb dn d then next_row_number else row_number))     (* 390-391 *)
            end
          else
            let neg := Rltb y_displacement 0 in
            let remaining_rows :=
              if neg then row_number else (Z.of_nat (List.length (_rows l)) - row_number - 1)%Z in
            let remaining_distance :=
              if neg then Center row - ext2 l - Height row / 2
              else ext3 l - Center row - Height row / 2 in                        (* 402, 408 *)
            let offset :=
              if neg then y_displacement + Height row / 2 else y_displacement - Height row / 2 in
            if Reqb remaining_distance 0 then Some UB
            else
              let param := IZR remaining_rows * (offset / remaining_distance) in  (* 412 *)
              let delta_row := if Rltb param 0 then Zfloor param else Zceil param in (* 413 *)
              if int_okb delta_row then
                if (delta_row =? 0)%Z then Some (Ok row_number)                   (* 415-422 *)
                else search_row fuel' l y (row_number + delta_row)                (* 424 *)
              else Some UB
      end
  end.

(** the choice of the pad in a row, RectangularPadRowLayout.cc 432-449 *)
Definition pad_in_row (l : rect) (row : Row) (x : R) : result Z :=
  if Rleb x (ext0 l + LeftOffset row) then Ok 0%Z                                 (* 437-439 *)
  else if Rleb (ext1 l - RightOffset row) x then Ok (NPad row - 1)%Z              (* 441-443 *)
  else if Reqb (WidthPerPad row) 0 then UB
  else to_int ((x - (ext0 l + LeftOffset row)) / WidthPerPad row).                (* 447 *)

(** getNearestPad, RectangularPadRowLayout.cc 357-452.  [None]: not finished within the fuel. *)
Definition getNearestPad (fuel : nat) (l : rect) (x y : R) : option (result Z) :=
  let x := clamp_lo x (ext0 l) in
  let x := clamp_hi x (ext1 l) in
  let y := clamp_lo y (ext2 l) in
  let y := clamp_hi y (ext3 l) in
  if Reqb (ext3 l - ext2 l) 0 then Some UB                                        (* 366: 0/0 to int *)
  else
    let guess := c_round (IZR (Z.of_nat (List.length (_rows l)) - 1) * (y - ext2 l)
                          / (ext3 l - ext2 l)) in                                 (* 366 *)
    match (if int_okb guess then search_row fuel l y guess else Some UB) with
    | None => None
    | Some (Ok rn) =>
        Some (rbind (sub (_rows l) rn) (fun row =>                                (* 435 *)
              rbind (pad_in_row l row x) (fun pn => getPadIndex l rn pn)))        (* 451 *)
    | Some (Throw e) => Some (Throw e)
    | Some UB => Some UB
    end.

(** getRightNeighbour, RectangularPadRowLayout.cc 455-468 *)
Definition getRightNeighbour (l : rect) (i : Z) : result Z :=
  let pn := (getPadNumber i + 1)%Z in
  rbind (getRowNumber l i) (fun rn =>
  rbind (at_ (_rows l) rn) (fun row =>
  if (NPad row - 1 <? pn)%Z
  then Throw (EGear "RectangularPadRowLayout::getRightNeighbour: no right neighbour pad !")
  else getPadIndex l rn pn)).

(** getLeftNeighbour, RectangularPadRowLayout.cc 470-482 *)
Definition getLeftNeighbour (l : rect) (i : Z) : result Z :=
  let pn := (getPadNumber i - 1)%Z in
  rbind (getRowNumber l i) (fun rn =>
  if (pn <? 0)%Z
  then Throw (EGear "RectangularPadRowLayout::getLeftNeighbour: no left neighbour pad !")
  else getPadIndex l rn pn).

(** isInsidePad(x,y,padIndex), RectangularPadRowLayout.cc 485-500 *)
Definition isInsidePad (l : rect) (x y : R) (i : Z) : result bool :=
  let pn := IZR (getPadNumber i) in
  rmap (fun row =>
    let pXMin := ext0 l + LeftOffset row + pn * WidthPerPad row + (WidthPerPad row - PadWidth row) / 2 in
    let pXMax := ext0 l + LeftOffset row + (pn + 1) * WidthPerPad row
                 - (WidthPerPad row - PadWidth row) / 2 in
    let pYMin := Center row - PadHeight row / 2 in
    let pYMax := Center row + PadHeight row / 2 in
    (Rleb pXMin x && Rleb x pXMax && Rleb pYMin y && Rleb y pYMax)%bool)
  (row_of l i).

(** isInsidePad(x,y), RectangularPadRowLayout.cc 502-511 *)
Definition isInsideAnyPad (fuel : nat) (l : rect) (x y : R) : option (result bool) :=
  if (Rltb x (ext0 l) || Rltb (ext1 l) x || Rltb y (ext2 l) || Rltb (ext3 l) y)%bool
  then Some (Ok false)
  else match getNearestPad fuel l x y with
       | None => None
       | Some r => Some (rbind r (fun i => isInsidePad l x y i))
       end.

(** distanceToBox, RectangularPadRowLayout.cc 513-578 *)
Definition distanceToBox (x y xmin ymin xmax ymax : R) : R :=
  if Rltb x xmin then
    if Rltb y ymin then sqrt ((xmin - x) * (xmin - x) + (ymin - y) * (ymin - y))
    else if Rltb ymax y then sqrt ((xmin - x) * (xmin - x) + (ymax - y) * (ymax - y))
    else xmin - x
  else if Rltb xmax x then
    if Rltb y ymin then sqrt ((xmax - x) * (xmax - x) + (ymin - y) * (ymin - y))
    else if Rltb ymax y then sqrt ((xmax - x) * (xmax - x) + (ymax - y) * (ymax - y))
    else x - xmax
  else
    if Rltb y ymin then ymin - y
    else if Rltb ymax y then y - ymax
    else -1.

(** getDistanceToPad, RectangularPadRowLayout.cc 580-598 *)
Definition getDistanceToPad (l : rect) (c0 c1 : R) (i : Z) : result R :=
  rbind (getPadCenter l i) (fun c =>
  rbind (getPadHeight l i) (fun ph =>
  rmap (fun pw =>
    let d := distanceToBox c0 c1 (fst c - pw * (1/2)) (snd c - ph * (1/2))
                           (fst c + pw * (1/2)) (snd c + ph * (1/2)) in
    if Rltb d 0 then 0 else d)
  (getPadWidth l i))).
