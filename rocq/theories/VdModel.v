(** Model of VersatileDiskRowLayout (src/gearimpl/VersatileDiskRowLayout.cc,
    include/gear/gearimpl/VersatileDiskRowLayout.h).  Doubles are reals; [_nPad] does not overflow. *)
From Coq Require Import ZArith List String Bool Reals.
From Flocq Require Import Core.Raux.
From Verif Require Import Base RBase DiskBase.
Import ListNotations.
Open Scope R_scope.

(** class Row, VersatileDiskRowLayout.h 30-49 *)
Record vrow := mkV {
  v_rowNumber : Z; v_nPads : Z; v_padPitch_mm : R; v_padPitch : R; v_padWidth_mm : R; v_padWidth : R;
  v_rowHeight : R; v_padHeight : R; v_offset_mm : R; v_offset : R; v_rCentre : R;
  v_phiMax : R; v_rMin : R; v_rMax : R }.

(** Row constructor, VersatileDiskRowLayout.cc 347-384.  A centre radius of 0 makes every angle inf
    or nan: [UB] here.  The second assignment in 383 goes to _rMin again, _rMax stays 0. *)
Definition new_vrow (rowNumber nPads : Z) (rCentre padPitch_mm rowHeight padWidth_mm padHeight offset_mm : R)
  : result vrow :=
  if Reqb rCentre 0 then UB
  else
    let offset := offset_mm / rCentre in                                          (* 354 *)
    let lo := Rltb offset (- 2 * PI) in                                           (* 357 *)
    let offset_mm1 := if lo then offset_mm + rCentre * 2 * PI else offset_mm in   (* 360 *)
    let offset1 := if lo then offset + 2 * PI else offset in                      (* 359 *)
    let hi := Rleb (2 * PI) offset1 in                                            (* 363 *)
    let offset_mm2 := if hi then offset_mm1 + rCentre * 2 * PI else offset_mm1 in (* 366 *)
    let padPitch := padPitch_mm / rCentre in                                      (* 369 *)
    if Rltb (2 * PI) (padPitch * IZR nPads)                                       (* 370 *)
    then Throw (EGear "gear::VersatileDiskRowLayout::addRow(): Error: Too many pads")
    else
      let offset2 := offset_mm2 / rCentre in                                      (* 379 *)
      Ok (mkV rowNumber nPads padPitch_mm padPitch padWidth_mm (padWidth_mm / rCentre) rowHeight
              padHeight offset_mm2 offset2 rCentre
              (offset2 + padPitch * IZR nPads) (rCentre + rowHeight * (1 / 2)) 0).  (* 381-383 *)

(** data members, VersatileDiskRowLayout.h 81-87; [_isFrayed] is false at all times *)
Record vd := mkVd {
  v_nPad : Z; v_rows : list vrow; v_e0 : R; v_e1 : R; v_e2 : R; v_e3 : R;
  v_padIndices : list (option (list Z)) }.

(** constructor, VersatileDiskRowLayout.cc 13-22 *)
Definition new_vd (rMin : R) : vd := mkVd 0 [] rMin rMin 0 0 [].

(** clone, copy constructor, copy_and_assign, VersatileDiskRowLayout.cc 24-51 *)
Definition vd_clone (l : vd) : vd :=
  mkVd (v_nPad l) (v_rows l) (v_e0 l) (v_e1 l) (v_e2 l) (v_e3 l) (repeat None (List.length (v_rows l))).

(** row loop of addRow, VersatileDiskRowLayout.cc 82-88 *)
Fixpoint vd_push (k : nat) (nPads : Z) (rCentre padPitch rowHeight padWidth padHeight offset : R) (l : vd)
  : sres vd unit :=
  match k with
  | O => SOk l tt
  | S k' =>
      match new_vrow (Z.of_nat (List.length (v_rows l))) nPads rCentre padPitch rowHeight padWidth
                     padHeight offset with
      | Ok row => vd_push k' nPads (rCentre + rowHeight) padPitch rowHeight padWidth padHeight offset
                          (mkVd (v_nPad l) (v_rows l ++ [row]) (v_e0 l) (v_e1 l) (v_e2 l) (v_e3 l)
                                (v_padIndices l ++ [None]))
      | Throw e => SThrow l e
      | UB => SUB
      end
  end.

(** new phi extent from the last row, VersatileDiskRowLayout.cc 92-101 *)
Definition vd_extent (l : vd) (row : vrow) : R * R :=
  let one := (List.length (v_rows l) =? 1)%nat in
  let e2 := if (one || Rltb (v_offset row) (v_e2 l))%bool then v_offset row else v_e2 l in
  let e3 := if (one || Rltb (v_e3 l) (v_phiMax row))%bool then v_phiMax row else v_e3 l in
  if Rltb (2 * PI) (e3 - e2) then (0, 2 * PI) else (e2, e3).

(** addRow, VersatileDiskRowLayout.cc 53-102 *)
Definition vd_addRow (l : vd) (nPads : Z) (padPitch rowHeight offset padWidth padHeight : R) (rep : Z)
  : sres vd unit :=
  if (nPads <=? 0)%Z then SThrow l (EGear "number of pads must be larger than 0!")        (* 60 *)
  else if Rltb padPitch 0 then SThrow l (EGear "pad pitch must be positive!")             (* 62 *)
  else if Rltb padWidth 0 then SThrow l (EGear "pad width must be positive!")             (* 64 *)
  else if Rltb padPitch padWidth then SThrow l (EGear "pad width must be smaller or equal pad pitch!")
  else if Rleb rowHeight 0 then SThrow l (EGear "row height must be larger than 0!")      (* 68 *)
  else if (rep <=? 0)%Z then SThrow l (EGear "number of repitions must be positive!")     (* 70 *)
  else
    let padWidth := if Reqb padWidth 0 then padPitch else padWidth in             (* 73-74 *)
    let padHeight := if Reqb padHeight 0 then rowHeight else padHeight in         (* 75-76 *)
    let rCentre := v_e1 l + rowHeight * (1 / 2) in                                (* 78 *)
    let l := mkVd (v_nPad l + rep * nPads) (v_rows l) (v_e0 l) (v_e1 l) (v_e2 l) (v_e3 l)
                  (v_padIndices l) in                                             (* 80 *)
    match vd_push (Z.to_nat rep) nPads rCentre padPitch rowHeight padWidth padHeight offset l with
    | SOk l _ =>
        match rev (v_rows l) with
        | row :: _ =>
            let e := vd_extent l row in                                           (* 92-101 *)
            SOk (mkVd (v_nPad l) (v_rows l) (v_e0 l) (v_e1 l + IZR rep * rowHeight) (fst e) (snd e)
                      (v_padIndices l)) tt                                        (* 91 *)
        | [] => SUB
        end
    | SThrow l e => SThrow l e
    | SUB => SUB
    end.

(** getNRows 104-106; getNPads, getPlaneExtent: VersatileDiskRowLayout.h 137, 174 *)
Definition vd_getNRows (l : vd) : Z := Z.of_nat (List.length (v_rows l)).
Definition vd_getNPads (l : vd) : Z := v_nPad l.
Definition vd_getPlaneExtent (l : vd) : list R := [v_e0 l; v_e1 l; v_e2 l; v_e3 l].
(** getRowHeight 108-111 *)
Definition vd_getRowHeight (l : vd) (row : Z) : result R := rmap v_rowHeight (at_ (v_rows l) row).
(** getRowNumber, VersatileDiskRowLayout.cc 207-222 *)
Definition vd_getRowNumber (l : vd) (i : Z) : result Z :=
  let rn := disk_rowNumber i in
  if ((rn <? 0)%Z || (Z.of_nat (List.length (v_rows l)) - 1 <? rn)%Z)%bool
  then Throw (EGear "VersatileDiskRowLayout::getRowNumber: illegal rownumber")
  else Ok rn.
Definition vd_row_of (l : vd) (i : Z) : result vrow :=
  rbind (vd_getRowNumber l i) (fun rn => sub (v_rows l) rn).
(** getPadHeight, getPadWidth, getPadPitch, VersatileDiskRowLayout.cc 113-134 *)
Definition vd_getPadHeight (l : vd) (i : Z) : result R := rmap v_padHeight (vd_row_of l i).
Definition vd_getPadWidth (l : vd) (i : Z) : result R := rmap v_padWidth (vd_row_of l i).
Definition vd_getPadPitch (l : vd) (i : Z) : result R := rmap v_padPitch (vd_row_of l i).
(** getPadCenter, VersatileDiskRowLayout.cc 137-149 *)
Definition vd_getPadCenter (l : vd) (i : Z) : result (R * R) :=
  rmap (fun row => (v_rCentre row, v_offset row + (IZR (disk_padNumber i) + 1 / 2) * v_padPitch row))
       (vd_row_of l i).
(** [_rows.size() - 1] in unsigned arithmetic: no rows give the largest std::size_t *)
Definition vd_last_row (l : vd) : Z :=
  match v_rows l with [] => 18446744073709551615 | _ => Z.of_nat (List.length (v_rows l)) - 1 end.
(** getPadIndex, VersatileDiskRowLayout.cc 225-245 *)
Definition vd_getPadIndex (l : vd) (rowNum padNum : Z) : result Z :=
  if (vd_last_row l <? uint32 rowNum)%Z
  then Throw (EOutOfRange " VersatileDiskRowLayout::getPadIndex row number too large !")
  else rbind (sub (v_rows l) rowNum) (fun row =>
       if (v_nPads row - 1 <? padNum)%Z
       then Throw (EOutOfRange "VersatileDiskRowLayout::getPadIndex: pad number too large")
       else Ok (disk_pack rowNum padNum)).
(** getPadsInRow, VersatileDiskRowLayout.cc 178-204 *)
Definition vd_getPadsInRow (l : vd) (row : Z) : sres vd (list Z) :=
  match nthZ (v_padIndices l) row with
  | None => SOk l []
  | Some (Some v) => SOk l v
  | Some None =>
      match nthZ (v_rows l) row with
      | None => SOk l []
      | Some r =>
          if (v_nPads r <? 0)%Z then SThrow l (ELength "cannot create std::vector")
          else match fill_indices (vd_getPadIndex l row) (Z.to_nat (v_nPads r)) 0 with
               | Ok v => SOk (mkVd (v_nPad l) (v_rows l) (v_e0 l) (v_e1 l) (v_e2 l) (v_e3 l)
                                   (cache_set (v_padIndices l) (Z.to_nat row) v)) v
               | Throw _ => SOk l []
               | UB => SUB
               end
      end
  end.

(** [fabs(_extent[3] - _extent[2] - 2*M_PI) < 1e-6], VersatileDiskRowLayout.cc 258, 277 *)
Definition vd_full (l : vd) : bool := Rltb (Rabs (v_e3 l - v_e2 l - 2 * PI)) (1 / 1000000).
(** getRightNeighbour, VersatileDiskRowLayout.cc 248-265 *)
Definition vd_getRightNeighbour (l : vd) (i : Z) : result Z :=
  let pn := (disk_padNumber i - 1)%Z in
  rbind (vd_getRowNumber l i) (fun rn =>
  if (pn =? -1)%Z then
    if vd_full l then rbind (sub (v_rows l) rn) (fun row => vd_getPadIndex l rn (v_nPads row - 1))
    else Throw (EGear "VersatileDiskRowLayout::getRightNeighbour: no right neighbour pad !")
  else vd_getPadIndex l rn pn).
(** getLeftNeighbour, VersatileDiskRowLayout.cc 267-284 *)
Definition vd_getLeftNeighbour (l : vd) (i : Z) : result Z :=
  let pn := (disk_padNumber i + 1)%Z in
  rbind (vd_getRowNumber l i) (fun rn =>
  rbind (sub (v_rows l) rn) (fun row =>
  if (pn =? v_nPads row)%Z then
    if vd_full l then vd_getPadIndex l rn 0
    else Throw (EGear "VersatileDiskRowLayout::getLeftNeighbour: no left neighbour pad !")
  else vd_getPadIndex l rn pn)).

(** Row::distanceToPhiMin and distanceToPhiMax, VersatileDiskRowLayout.cc 456-502, for the edge angle
    [edge] *)
Definition corner_distance (row : vrow) (r phi edge : R) : R :=
  let phi := wrap_down (2 * PI) (wrap_up 0 phi) in
  let r_min := v_rCentre row - v_rowHeight row * (1 / 2) in
  let r_max := v_rCentre row + v_rowHeight row * (1 / 2) in
  let d0 := r_min * r_min + r * r - 2 * r_min * r * cos (edge - phi) in
  let d1 := r_max * r_max + r * r - 2 * r_max * r * cos (edge - phi) in
  sqrt (if Rltb d1 d0 then d1 else d0).
Definition row_phi_max (row : vrow) : R := v_offset row + IZR (v_nPads row) * v_padPitch row.

(** Row::getNearestPad, VersatileDiskRowLayout.cc 386-413: the index is packed without any check *)
Definition vrow_getNearestPad (row : vrow) (r phi : R) : result Z :=
  let phi := wrap_down (2 * PI) (wrap_up 0 phi) in
  if Rltb phi (row_phi_max row) then                                              (* 397 *)
    rmap (disk_pack (v_rowNumber row)) (floor_div (phi - v_offset row) (v_padPitch row))
  else if Rltb (corner_distance row r phi (v_offset row)) (corner_distance row r phi (row_phi_max row))
  then Ok (disk_pack (v_rowNumber row) 0)                                         (* 409 *)
  else Ok (disk_pack (v_rowNumber row) (v_nPads row - 1)).                        (* 411 *)

(** Row::getDistanceToRow, VersatileDiskRowLayout.cc 415-453 *)
Definition vrow_distance (row : vrow) (r phi : R) : R :=
  let phi := wrap_down (2 * PI) (wrap_up 0 phi) in
  let r_min := v_rCentre row - v_rowHeight row * (1 / 2) in
  let r_max := v_rCentre row + v_rowHeight row * (1 / 2) in
  if (Rleb (v_offset row) phi && Rleb phi (row_phi_max row))%bool then
    if (Rleb r_min r && Rleb r r_max)%bool then 0
    else if Rltb r r_min then r_min - r else r - r_max
  else
    let d1 := corner_distance row r phi (v_offset row) in
    let d2 := corner_distance row r phi (row_phi_max row) in
    if Rltb d1 d2 then d1 else d2.

(** scan of getNearestPad, VersatileDiskRowLayout.cc 289-302.  [rowIter = _rows.begin()++] starts at
    begin(); [best] is (nearestPad, distance), [None] before the first row. *)
Fixpoint vd_scan (rows : list vrow) (r phi : R) (best : option (Z * R)) : result (option (Z * R)) :=
  match rows with
  | [] => Ok best
  | row :: t =>
      let d := vrow_distance row r phi in
      let take := match best with None => true | Some (_, d0) => Rltb d d0 end in
      if take then rbind (vrow_getNearestPad row r phi) (fun p => vd_scan t r phi (Some (p, d)))
      else vd_scan t r phi best
  end.
(** getNearestPad, VersatileDiskRowLayout.cc 286-308 (an index -1 counts as "no rows") *)
Definition vd_getNearestPad (l : vd) (r phi : R) : result Z :=
  rbind (vd_scan (v_rows l) r phi None) (fun b =>
  let p := match b with Some (p, _) => p | None => (-1)%Z end in
  if (p =? -1)%Z then Throw (EGear "VersatileDiskRowLayout::getNearestPad(): no pad rows defined.")
  else Ok p).

(** isInsidePad(r,phi,padIndex), VersatileDiskRowLayout.cc 310-334 *)
Definition vd_isInsidePad (l : vd) (r phi : R) (i : Z) : result bool :=
  rmap (fun row =>
    let rMin := v_rCentre row - v_rowHeight row * (1 / 2) in
    let rMax := v_rCentre row + v_rowHeight row * (1 / 2) in
    let phiMin := v_offset row + v_padPitch row * IZR (disk_padNumber i) in
    let phi := if Rltb phi phiMin then phi + 2 * PI else phi in                   (* 324-325 *)
    let phi := if Rleb (phiMin + 2 * PI) phi then phi - 2 * PI else phi in        (* 327-328 *)
    let phiMax := phiMin + v_padPitch row in
    (Rleb rMin r && Rleb r rMax && Rleb phi phiMax)%bool)
  (vd_row_of l i).
(** isInsidePad(r,phi), VersatileDiskRowLayout.cc 336-345 *)
Definition vd_isInsideAnyPad (l : vd) (r phi : R) : result bool :=
  if (Rltb r (v_e0 l) || Rltb (v_e1 l) r || Rltb phi (v_e2 l) || Rltb (v_e3 l) phi)%bool then Ok false
  else rbind (vd_getNearestPad l r phi) (fun i => vd_isInsidePad l r phi i).
(** getDistanceToPad, inherited: FixedDiskLayoutBase.cc 20-96 *)
Definition vd_getDistanceToPad (l : vd) (r phi : R) (i : Z) : result R :=
  rbind (vd_getPadCenter l i) (fun c =>
  rbind (vd_getRowNumber l i) (fun rn =>
  rbind (vd_getRowHeight l rn) (fun h =>
  rmap (fun p => disk_distance c h p r phi) (vd_getPadPitch l i)))).
