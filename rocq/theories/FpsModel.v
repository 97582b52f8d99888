(** Model of FixedPadSizeDiskLayout (src/gearimpl/FixedPadSizeDiskLayout.cc,
    include/gear/gearimpl/FixedPadSizeDiskLayout.h).  Doubles are reals; [_nPad] does not overflow. *)
From Coq Require Import ZArith List String Bool Reals.
From Flocq Require Import Core.Raux.
From Verif Require Import Base RBase DiskBase.
Import ListNotations.
Open Scope R_scope.

(** struct Row, FixedPadSizeDiskLayout.h 28-32.  In a row without pads [f_PhiPad] is not meaningful
    (the program has inf there); every use of it guards against that. *)
Record frow := mkF { f_NPad : Z; f_RCenter : R; f_PhiPad : R }.

(** data members, FixedPadSizeDiskLayout.h 36-47; [_extent] is (rMin,rMax,0,phiMax) at all times *)
Record fps := mkFps {
  f_rMin : R; f_rMax : R; f_phiMax : R; f_rowHeight : R; f_padWidth : R; f_padHeight : R; f_padGap : R;
  f_nRow : Z; f_nPad : Z; f_rows : list frow; f_padIndices : list (option (list Z)) }.

(** row loop of the constructor, FixedPadSizeDiskLayout.cc 99-117: rows [i .. i+k-1] *)
Fixpoint fps_rows (k : nat) (i : Z) (rMin rowHeight phiMax padWidth padGap : R) : result (list frow) :=
  match k with
  | O => Ok []
  | S k' =>
      let rc := rMin + IZR i * rowHeight + (1 / 2) * rowHeight in                 (* 103 *)
      rbind (floor_div (rc * phiMax) (padWidth + padGap)) (fun np =>              (* 105-107 *)
      rmap (cons (mkF np rc (phiMax / IZR np)))                                   (* 109, 116 *)
           (fps_rows k' (i + 1) rMin rowHeight phiMax padWidth padGap))
  end.
Fixpoint sum_npad (rows : list frow) : Z :=
  match rows with [] => 0%Z | r :: t => (f_NPad r + sum_npad t)%Z end.            (* 114 *)

(** constructor, FixedPadSizeDiskLayout.cc 28-119.  [_padIndices.resize] of a negative number (85)
    asks for an impossible size and throws std::length_error.  With no row [_rowHeight] (95) is a
    division by zero whose value is never meaningful. *)
Definition new_fps (rMin rMax padHeight padWidth : R) (nRow : Z) (padGap phiMax : R) : result fps :=
  if (Rleb padHeight 0 || Rleb padWidth 0)%bool                                   (* 42 *)
  then Throw (EParse " FixedPadSizeDiskLayout: missing or inconsistent parameters")
  else
    let phiMax := wrap_down (2 * PI) (wrap_up (- 2 * PI) phiMax) in               (* 54-55 *)
    rbind (to_int ((rMax + 1 / 100 - rMin) / padHeight)) (fun nr =>               (* 68 *)
    let n := if (0 <? nRow)%Z then nRow else nr in                                (* 70 *)
    let n := if (nr <? nRow)%Z then nr else n in                                  (* 72-83 *)
    if (n <? 0)%Z then Throw (ELength "vector::_M_default_append")                (* 85 *)
    else
      let rowHeight := (rMax - rMin) / IZR n in                                   (* 95 *)
      rmap (fun rows => mkFps rMin rMax phiMax rowHeight padWidth padHeight padGap n (sum_npad rows) rows
                              (repeat None (Z.to_nat n)))
           (fps_rows (Z.to_nat n) 0 rMin rowHeight phiMax padWidth padGap)).

(** clone, copy constructor, copy_and_assign, FixedPadSizeDiskLayout.cc 15-18, 121-159 *)
Definition fps_clone (l : fps) : fps :=
  mkFps (f_rMin l) (f_rMax l) (f_phiMax l) (f_rowHeight l) (f_padWidth l) (f_padHeight l) (f_padGap l)
        (f_nRow l) (f_nPad l) (f_rows l) (repeat None (Z.to_nat (f_nRow l))).

(** getNRows 161-163; getNPads, getRowHeight, getPadHeight, getPadGap, getFixedPadWidth,
    getPlaneExtent: FixedPadSizeDiskLayout.h 118, 126, 130, 93, 97, 153 *)
Definition fps_getNRows (l : fps) : Z := Z.of_nat (List.length (f_rows l)).
Definition fps_getNPads (l : fps) : Z := f_nPad l.
Definition fps_getRowHeight (l : fps) (row : Z) : R := f_rowHeight l.
Definition fps_getPadHeight (l : fps) (i : Z) : R := f_padHeight l.
Definition fps_getPadGap (l : fps) : R := f_padGap l.
Definition fps_getFixedPadWidth (l : fps) : R := f_padWidth l.
Definition fps_getPlaneExtent (l : fps) : list R := [f_rMin l; f_rMax l; 0; f_phiMax l].

(** getPadWidth, FixedPadSizeDiskLayout.cc 166-179.  A row centred at radius 0 gives inf; not
    representable here, so UB. *)
Definition fps_getPadWidth (l : fps) (i : Z) : result R :=
  match nthZ (f_rows l) (disk_rowNumber i) with
  | Some row => if Reqb (f_RCenter row) 0 then UB else Ok (f_padWidth l / f_RCenter row)
  | None => Ok 0
  end.
(** getPadPitch, FixedPadSizeDiskLayout.cc 181-194 (inf or nan in a row without pads: UB here) *)
Definition fps_getPadPitch (l : fps) (i : Z) : result R :=
  match nthZ (f_rows l) (disk_rowNumber i) with
  | Some row => if (f_NPad row =? 0)%Z then UB else Ok (f_PhiPad row)
  | None => Ok 0
  end.
(** getPadCenter, FixedPadSizeDiskLayout.cc 198-209: the row is not checked *)
Definition fps_getPadCenter (l : fps) (i : Z) : result (R * R) :=
  rbind (sub (f_rows l) (disk_rowNumber i)) (fun row =>
  if (f_NPad row =? 0)%Z then UB
  else Ok (f_RCenter row, (IZR (disk_padNumber i) + 1 / 2) * f_PhiPad row)).

(** getPadIndex, FixedPadSizeDiskLayout.cc 238-258 (64-bit unsigned comparison in 240) *)
Definition fps_getPadIndex (l : fps) (rowNum padNum : Z) : result Z :=
  if ((Z.of_nat (List.length (f_rows l)) - 1) mod 18446744073709551616 <? uint32 rowNum)%Z
  then Throw (EOutOfRange " FixedPadSizeDiskLayout::getPadIndex row number too large !")
  else rbind (sub (f_rows l) rowNum) (fun row =>
       if (f_NPad row - 1 <? padNum)%Z
       then Throw (EOutOfRange "FixedPadSizeDiskLayout::getPadIndex: pad number too large")
       else Ok (disk_pack rowNum padNum)).

(** getPadsInRow, FixedPadSizeDiskLayout.cc 211-236: fills the cache on first use; out_of_range
    inside gives the static empty vector; a negative pad count throws std::length_error (219) *)
Definition fps_getPadsInRow (l : fps) (row : Z) : sres fps (list Z) :=
  match nthZ (f_padIndices l) row with
  | None => SOk l []                                                              (* 215, 227-232 *)
  | Some (Some v) => SOk l v                                                      (* 234 *)
  | Some None =>
      match nthZ (f_rows l) row with
      | None => SOk l []                                                          (* 217 *)
      | Some r =>
          if (f_NPad r <? 0)%Z then SThrow l (ELength "cannot create std::vector")  (* 219 *)
          else match fill_indices (fps_getPadIndex l row) (Z.to_nat (f_NPad r)) 0 with
               | Ok v => SOk (mkFps (f_rMin l) (f_rMax l) (f_phiMax l) (f_rowHeight l) (f_padWidth l)
                                    (f_padHeight l) (f_padGap l) (f_nRow l) (f_nPad l) (f_rows l)
                                    (cache_set (f_padIndices l) (Z.to_nat row) v)) v
               | Throw _ => SOk l []
               | UB => SUB
               end
      end
  end.

(** [fabs(_phiMax - 2*M_PI) < 1e-6], FixedPadSizeDiskLayout.cc 270, 464, 486 *)
Definition fps_full (l : fps) : bool := Rltb (Rabs (f_phiMax l - 2 * PI)) (1 / 1000000).

(** row of a projected radius, FixedPadSizeDiskLayout.cc 355-358 and 368-371 *)
Definition fps_row_of (l : fps) (r : R) : result Z :=
  rmap (fun rowNum =>
          let rowNum := if (rowNum <? 0)%Z then 0%Z else rowNum in
          if (f_nRow l <=? rowNum)%Z then (f_nRow l - 1)%Z else rowNum)
       (floor_div (r - f_rMin l) (f_rowHeight l)).

(** Area 1 of getNearestPad, FixedPadSizeDiskLayout.cc 299-313 *)
Definition fps_area1 (l : fps) (r phi : R) : result Z :=
  rbind (if Rltb r (f_rMin l) then Ok 0%Z else floor_div (r - f_rMin l) (f_rowHeight l)) (fun rowNum =>
  let rowNum := if (f_nRow l <=? rowNum)%Z then (f_nRow l - 1)%Z else rowNum in   (* 301-302 *)
  rbind (sub (f_rows l) rowNum) (fun row =>
  if (f_NPad row =? 0)%Z then UB                           (* phi / inf; see the comment of [frow] *)
  else rbind (floor_div phi (f_PhiPad row)) (fun padNum =>                        (* 304 *)
  let padNum := if (f_NPad row <=? padNum)%Z then (f_NPad row - 1)%Z else padNum in
  fps_getPadIndex l rowNum padNum))).

(** Area 2 of getNearestPad, FixedPadSizeDiskLayout.cc 322-387; [rpMax], [rpMin] are
    rProjectedOnPhiMax and rProjectedOnPhiMin *)
Definition fps_area2 (l : fps) (rpMin rpMax phi : R) : result Z :=
  let last row := rbind (sub (f_rows l) row) (fun rw => fps_getPadIndex l row (f_NPad rw - 1)) in
  if (Rltb rpMin (f_rMin l) && Rltb phi 0)%bool then fps_getPadIndex l 0 0                      (* 322 *)
  else if (Rltb (f_rMax l) rpMin && Rltb phi 0)%bool then fps_getPadIndex l (f_nRow l - 1) 0    (* 329 *)
  else if (Rltb rpMax (f_rMin l) && Rltb (f_phiMax l) phi)%bool then last 0%Z                   (* 336 *)
  else if (Rltb (f_rMax l) rpMax && Rltb (f_phiMax l) phi)%bool then last (f_nRow l - 1)%Z      (* 343 *)
  else if (Rleb (f_rMin l) rpMin && Rleb rpMin (f_rMax l) && Rltb phi 0)%bool then              (* 350 *)
    rbind (fps_row_of l rpMin) (fun row => fps_getPadIndex l row 0)
  else if (Rleb (f_rMin l) rpMax && Rleb rpMax (f_rMax l) && Rltb (f_phiMax l) phi)%bool then   (* 363 *)
    rbind (fps_row_of l rpMax) last
  else fps_getPadIndex l 0 0.                                                                   (* 376 *)

(** getNearestPad, FixedPadSizeDiskLayout.cc 260-387 *)
Definition fps_getNearestPad (l : fps) (r phi : R) : result Z :=
  if Rltb (Rabs r) (1 / 1000000)                                                  (* 262 *)
  then Throw (EGear "FixedPadSizeDiskLayout::getNearestPad: r can't be zero !")
  else
    let phi' := if fps_full l then wrap_down (2 * PI) (wrap_up 0 phi)             (* 273-274 *)
                else wrap_down (2 * PI) (wrap_up (- 2 * PI) phi) in               (* 278-279 *)
    let rpMax := if fps_full l then r else r * cos (phi' - f_phiMax l) in         (* 267, 281 *)
    let rpMin := if fps_full l then r else r * cos (phi' - 0) in                  (* 268, 282 *)
    if (Rltb 0 r && Rleb 0 phi' && Rleb phi' (f_phiMax l))%bool                   (* 298 *)
    then fps_area1 l r phi'
    else fps_area2 l rpMin rpMax phi'.

(** getLeftNeighbour, FixedPadSizeDiskLayout.cc 454-474 *)
Definition fps_getLeftNeighbour (l : fps) (i : Z) : result Z :=
  let pn := (disk_padNumber i + 1)%Z in
  let rn := disk_rowNumber i in
  rbind (at_ (f_rows l) rn) (fun row =>
  if (f_NPad row - 1 <? pn)%Z then
    if fps_full l then fps_getPadIndex l rn 0
    else Throw (EGear "FixedPadSizeDiskLayout::getLeftNeighbour: no left neighbour pad !")
  else fps_getPadIndex l rn pn).

(** getRightNeighbour, FixedPadSizeDiskLayout.cc 476-495 *)
Definition fps_getRightNeighbour (l : fps) (i : Z) : result Z :=
  let pn := (disk_padNumber i - 1)%Z in
  let rn := disk_rowNumber i in
  rbind (at_ (f_rows l) rn) (fun row =>
  if (pn <? 0)%Z then
    if fps_full l then fps_getPadIndex l rn (f_NPad row - 1)
    else Throw (EGear "FixedPadSizeDiskLayout::getRightNeighbour: no right neighbour pad !")
  else fps_getPadIndex l rn pn).

(** isInsidePad(r,phi,padIndex), FixedPadSizeDiskLayout.cc 498-535 *)
Definition fps_isInsidePad (l : fps) (r phi : R) (i : Z) : result bool :=
  if (Rltb r (f_rMin l) || Rltb (f_rMax l) r)%bool then Ok false
  else
    let phi := wrap_down (2 * PI) (wrap_up 0 phi) in
    rbind (fps_getPadCenter l i) (fun p =>
    rmap (fun w => (Rleb (Rabs (r - fst p)) (1 / 2 * f_padHeight l)
                    && Rleb (Rabs (phi - snd p)) (1 / 2 * w))%bool)
         (fps_getPadWidth l i)).

(** isInsidePad(r,phi), FixedPadSizeDiskLayout.cc 537-549 *)
Definition fps_isInsideAnyPad (l : fps) (r phi : R) : result bool :=
  if (Rltb r (f_rMin l) || Rltb (f_rMax l) r)%bool then Ok false
  else
    let phi := wrap_down (2 * PI) (wrap_up 0 phi) in
    rbind (fps_getNearestPad l r phi) (fun i => fps_isInsidePad l r phi i).

(** getDistanceToPad, inherited: FixedDiskLayoutBase.cc 20-96 *)
Definition fps_getDistanceToPad (l : fps) (r phi : R) (i : Z) : result R :=
  rbind (fps_getPadCenter l i) (fun c =>
  rmap (fun p => disk_distance c (fps_getRowHeight l (disk_rowNumber i)) p r phi) (fps_getPadPitch l i)).
