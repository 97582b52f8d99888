(** Counting pads in the arithmetic of [int]: the calls that add to the number of pads of a layout, with signed overflow as undefined behaviour.
    Everything else is as in RectModel, VdModel, FpaModel and FpsModel. *)
From Coq Require Import ZArith List String Bool Reals.
From Verif Require Import Base RBase DiskBase RectModel VdModel FpaModel FpsModel RectSpec DiskSpec.
Import ListNotations.
Open Scope string_scope.
Open Scope R_scope.

(** [n += a * b] for ints *)
Definition int_add_prod (n a b : Z) : option Z :=
  if int_okb (a * b) then if int_okb (n + a * b) then Some (n + a * b)%Z else None else None.

(** addRow, RectangularPadRowLayout.cc 60-132, with the count of line 92 as an int *)
Definition addRow_i (l : rect) (nRow nPad : Z) (padWidth padHeight rowHeight leftOffset rightOffset : R) : sres rect unit :=
  if negb ((0 <? nRow)%Z && (0 <? nPad)%Z && negb (Rltb padWidth 0) && negb (Rltb padHeight 0) &&
           negb (Rltb rowHeight 0) && negb (Rltb leftOffset 0) && negb (Rltb rightOffset 0))%bool
  then SUB                                                                        (* 66-72 *)
  else
    let xMin := ext0 l + leftOffset in                                            (* 75 *)
    let xMax := ext1 l - rightOffset in                                           (* 76 *)
    let rowWidth := xMax - xMin in                                                (* 78 *)
    if Rltb rowWidth (IZR nPad * padWidth)                                        (* 80 *)
    then SThrow l (EGear "RectangularPadRowLayout::addRow: can't fit")            (* 87 *)
    else match int_add_prod (_nPad l) (Z.abs nRow) (Z.abs nPad) with              (* 92 *)
    | None => SUB
    | Some n =>
      let l := mkRect (_nRow l) n (_repeatRows l) (_rows l)
                      (ext0 l) (ext1 l) (ext2 l) (ext3 l) (_padIndices l) (_nRows l) in
      let widthPerPad := rowWidth / IZR nPad in                                   (* 94 *)
      let rowHeight := if Reqb rowHeight 0 then padHeight else rowHeight in       (* 96-97 *)
      if Rltb rowHeight padHeight                                                 (* 99 *)
      then SThrow l (EGear "RectangularPadRowLayout::addRow: row height")         (* 105 *)
      else
        let row := mkRow nPad padWidth padHeight rowHeight leftOffset rightOffset 0 widthPerPad in
        let l := push_rows (Z.to_nat nRow) row l in                               (* 119-128 *)
        SOk (mkRect (_nRow l) (_nPad l) (_repeatRows l) (_rows l) (ext0 l) (ext1 l) (ext2 l) (ext3 l)
                    (_padIndices l) (_nRows l ++ [nRow])) tt                      (* 130 *)
    end.
(** repeatRows, RectangularPadRowLayout.cc 134-153 *)
Fixpoint repeat_inner_i (n : nat) (j : nat) (l : rect) : sres rect unit :=
  match n with
  | O => SOk l tt
  | S n' =>
      match nth_error (_rows l) j with
      | None => SUB
      | Some r =>
          match addRow_i l 1 (NPad r) (PadWidth r) (PadHeight r) (Height r) (LeftOffset r) (RightOffset r) with
          | SOk l' _ => repeat_inner_i n' (S j) l'
          | e => e
          end
      end
  end.
Fixpoint repeat_outer_i (m : nat) (nRow : nat) (l : rect) : sres rect unit :=
  match m with
  | O => SOk l tt
  | S m' => match repeat_inner_i nRow 0 l with SOk l' _ => repeat_outer_i m' nRow l' | e => e end
  end.
Definition repeatRows_i (l : rect) (count : Z) : sres rect unit :=
  if (0 <? _repeatRows l)%Z then SOk l tt                                         (* 136-137 *)
  else
    let l := mkRect (_nRow l) (_nPad l) (int32 count) (_rows l) (ext0 l) (ext1 l) (ext2 l) (ext3 l)
                    (_padIndices l) (_nRows l) in                                 (* 139 *)
    repeat_outer_i (Z.to_nat (uint32 (count - 1))) (List.length (_rows l)) l.     (* 141-152 *)

(** addRow, VersatileDiskRowLayout.cc 53-102, with the count of line 80 as an int *)
Definition vd_addRow_i (l : vd) (nPads : Z) (padPitch rowHeight offset padWidth padHeight : R) (rep : Z) : sres vd unit :=
  if (nPads <=? 0)%Z then SThrow l (EGear "number of pads must be larger than 0!")        (* 60 *)
  else if Rltb padPitch 0 then SThrow l (EGear "pad pitch must be positive!")             (* 62 *)
  else if Rltb padWidth 0 then SThrow l (EGear "pad width must be positive!")             (* 64 *)
  else if Rltb padPitch padWidth then SThrow l (EGear "pad width must be smaller or equal pad pitch!")
  else if Rleb rowHeight 0 then SThrow l (EGear "row height must be larger than 0!")      (* 68 *)
  else if (rep <=? 0)%Z then SThrow l (EGear "number of repitions must be positive!")     (* 70 *)
  else
    let padWidth := if Reqb padWidth 0 then padPitch else padWidth in             (* 73-74 *)
    let padHeight := if Reqb padHeight 0 then rowHeight else padHeight in         (* 75-76 *)
    let rCentre := v_e1 l + rowHeight * (1 / 2) in                                (* 78 *)
    match int_add_prod (v_nPad l) rep nPads with                                  (* 80 *)
    | None => SUB
    | Some n =>
      let l := mkVd n (v_rows l) (v_e0 l) (v_e1 l) (v_e2 l) (v_e3 l) (v_padIndices l) in
      match vd_push (Z.to_nat rep) nPads rCentre padPitch rowHeight padWidth padHeight offset l with
      | SOk l _ =>
          match rev (v_rows l) with
          | row :: _ =>
              let e := vd_extent l row in                                         (* 92-101 *)
              SOk (mkVd (v_nPad l) (v_rows l) (v_e0 l) (v_e1 l + IZR rep * rowHeight) (fst e) (snd e)
                        (v_padIndices l)) tt                                      (* 91 *)
          | [] => SUB
          end
      | SThrow l e => SThrow l e
      | SUB => SUB
      end
    end.

(** FixedPadAngleDiskLayout constructor, FixedPadAngleDiskLayout.cc 28-108, with the product of line 87 as an int *)
Definition new_fpa_i (rMin rMax : R) (nRow : Z) (phiMin phiMax : R) (nPadsInRow : Z) : result fpa :=
  if (nRow <? 0)%Z then Throw (ELength "vector::_M_default_append")
  else match int_add_prod 0 nRow nPadsInRow with
  | None => UB
  | Some n => Ok (mkFpa rMin rMax nRow ((rMax - rMin) / IZR nRow) phiMin phiMax
                        ((phiMax - phiMin) / IZR nPadsInRow) nPadsInRow n (repeat None (Z.to_nat nRow)))
  end.

(** sum over the rows of a FixedPadSizeDiskLayout, FixedPadSizeDiskLayout.cc 97 and 114, in ints; the loop also makes the rows, here that is done before *)
Fixpoint int_sum (n : Z) (rows : list frow) : result Z :=
  match rows with
  | [] => Ok n
  | r :: t => if int_okb (n + f_NPad r) then int_sum (n + f_NPad r) t else UB
  end.
(** constructor, FixedPadSizeDiskLayout.cc 28-119 *)
Definition new_fps_i (rMin rMax padHeight padWidth : R) (nRow : Z) (padGap phiMax : R) : result fps :=
  if (Rleb padHeight 0 || Rleb padWidth 0)%bool                                   (* 42 *)
  then Throw (EParse " FixedPadSizeDiskLayout: missing or inconsistent parameters")
  else
    let phiMax := wrap_down (2 * PI) (wrap_up (- 2 * PI) phiMax) in               (* 54-55 *)
    rbind (to_int ((rMax + 1 / 100 - rMin) / padHeight)) (fun nr =>               (* 68 *)
    let n := if (0 <? nRow)%Z then nRow else nr in                                (* 70 *)
    let n := if (nr <? nRow)%Z then nr else n in                                  (* 72-83 *)
    if (n <? 0)%Z then Throw (ELength "vector::_M_default_append")                (* 85 *)
    else
      let rowHeight := (rMax - rMin) / IZR n in                                   (* 95 *)
      rbind (fps_rows (Z.to_nat n) 0 rMin rowHeight phiMax padWidth padGap) (fun rows =>
      rmap (fun np => mkFps rMin rMax phiMax rowHeight padWidth padHeight padGap n np rows (repeat None (Z.to_nat n)))
           (int_sum 0 rows))).                                                    (* 114 *)
