(** Model of FixedPadAngleDiskLayout (src/gearimpl/FixedPadAngleDiskLayout.cc,
    include/gear/gearimpl/FixedPadAngleDiskLayout.h).  Doubles are reals; [_nPad] does not overflow. *)
From Coq Require Import ZArith List String Bool Reals.
From Flocq Require Import Core.Raux.
From Verif Require Import Base RBase DiskBase.
Import ListNotations.
Open Scope R_scope.

(** data members, FixedPadAngleDiskLayout.h 30-44; [_extent] is (rMin,rMax,phiMin,phiMax) at all times *)
Record fpa := mkFpa {
  p_rMin : R; p_rMax : R; p_nRow : Z; p_rowHeight : R; p_phiMin : R; p_phiMax : R; p_padAngle : R;
  p_nPadsInRow : Z; p_nPad : Z; p_padIndices : list (option (list Z)) }.

(** constructor, FixedPadAngleDiskLayout.cc 28-108.  A negative number of rows throws
    std::length_error in 76; nothing else is checked.  With 0 rows or 0 pads the row height (pad
    angle) is a division by zero whose value is never meaningful. *)
Definition new_fpa (rMin rMax : R) (nRow : Z) (phiMin phiMax : R) (nPadsInRow : Z) : result fpa :=
  if (nRow <? 0)%Z then Throw (ELength "vector::_M_default_append")
  else Ok (mkFpa rMin rMax nRow ((rMax - rMin) / IZR nRow) phiMin phiMax
                 ((phiMax - phiMin) / IZR nPadsInRow) nPadsInRow (nRow * nPadsInRow)
                 (repeat None (Z.to_nat nRow))).

(** clone, copy constructor, copy_and_assign, FixedPadAngleDiskLayout.cc 16-19, 110-149 *)
Definition fpa_clone (l : fpa) : fpa :=
  mkFpa (p_rMin l) (p_rMax l) (p_nRow l) (p_rowHeight l) (p_phiMin l) (p_phiMax l) (p_padAngle l)
        (p_nPadsInRow l) (p_nPad l) (repeat None (Z.to_nat (p_nRow l))).

(** FixedPadAngleDiskLayout.h 114, 118, 145, 153, 122, 126, 131, 136, 91 *)
Definition fpa_getNPads (l : fpa) : Z := p_nPad l.
Definition fpa_getNRows (l : fpa) : Z := p_nRow l.
Definition fpa_getNPadsInRow (l : fpa) : Z := p_nPadsInRow l.
Definition fpa_getPlaneExtent (l : fpa) : list R := [p_rMin l; p_rMax l; p_phiMin l; p_phiMax l].
Definition fpa_getRowHeight (l : fpa) (row : Z) : R := p_rowHeight l.
Definition fpa_getPadHeight (l : fpa) (i : Z) : R := p_rowHeight l.
Definition fpa_getPadWidth (l : fpa) (i : Z) : R := p_padAngle l.
Definition fpa_getPadPitch (l : fpa) (i : Z) : R := p_padAngle l.
Definition fpa_getFixedPadAngle (l : fpa) : R := p_padAngle l.

(** getPadCenter, FixedPadAngleDiskLayout.cc 151-161: no check at all *)
Definition fpa_getPadCenter (l : fpa) (i : Z) : R * R :=
  ((IZR (disk_rowNumber i) + 1 / 2) * p_rowHeight l + p_rMin l,
   (IZR (disk_padNumber i) + 1 / 2) * p_padAngle l + p_phiMin l).

(** getPadIndex, FixedPadAngleDiskLayout.cc 189-209: negative numbers are not refused *)
Definition fpa_getPadIndex (l : fpa) (rowNum padNum : Z) : result Z :=
  if (p_nRow l - 1 <? rowNum)%Z
  then Throw (EOutOfRange " FixedPadAngleDiskLayout::getPadIndex row number too large !")
  else if (p_nPadsInRow l - 1 <? padNum)%Z
  then Throw (EOutOfRange "FixedPadAngleDiskLayout::getPadIndex: pad number too large")
  else Ok (disk_pack rowNum padNum).

(** getPadsInRow, FixedPadAngleDiskLayout.cc 163-187 *)
Definition fpa_getPadsInRow (l : fpa) (row : Z) : sres fpa (list Z) :=
  match nthZ (p_padIndices l) row with
  | None => SOk l []                                                              (* 168, 178-183 *)
  | Some (Some v) => SOk l v                                                      (* 185 *)
  | Some None =>
      if (p_nPadsInRow l <? 0)%Z then SThrow l (ELength "cannot create std::vector")  (* 170 *)
      else match fill_indices (fpa_getPadIndex l row) (Z.to_nat (p_nPadsInRow l)) 0 with
           | Ok v => SOk (mkFpa (p_rMin l) (p_rMax l) (p_nRow l) (p_rowHeight l) (p_phiMin l) (p_phiMax l)
                                (p_padAngle l) (p_nPadsInRow l) (p_nPad l)
                                (cache_set (p_padIndices l) (Z.to_nat row) v)) v
           | Throw _ => SOk l []
           | UB => SUB
           end
  end.

(** getDistanceToPad, inherited: FixedDiskLayoutBase.cc 20-96 *)
Definition fpa_getDistanceToPad (l : fpa) (r phi : R) (i : Z) : R :=
  disk_distance (fpa_getPadCenter l i) (fpa_getRowHeight l (disk_rowNumber i)) (fpa_getPadPitch l i) r phi.

(** the row nearest on the edge at angle [edge] for a point outside the wedge,
    FixedPadAngleDiskLayout.cc 236-260 (edge = _phiMin) and 263-277 (edge = _phiMax).  Lines 257 and
    274 use r itself, not its projection on the edge. *)
Definition fpa_edge_row (l : fpa) (r phi edge : R) : result Z :=
  if Rltb (PI / 2) (Rabs (phi - edge)) then Ok 0%Z                                (* 237, 264 *)
  else
    let r_intersect := r * (cos phi * cos edge + sin phi * sin edge) in           (* 253, 270 *)
    rmap (fun rowNum => if (p_nRow l <=? rowNum)%Z then (p_nRow l - 1)%Z else rowNum)
         (if Rltb r_intersect (p_rMin l) then Ok 0%Z
          else floor_div (r - p_rMin l) (p_rowHeight l)).                         (* 257, 274 *)

(** getNearestPad, FixedPadAngleDiskLayout.cc 211-284 *)
Definition fpa_getNearestPad (l : fpa) (r phi : R) : result Z :=
  if Rltb r 0                                                                     (* 214 *)
  then Throw (EOutOfRange "FixedPadAngleDiskLayout::getNearestPad: radius must not be negative in polar coordinates!")
  else
    let phiMean := (p_phiMax l + p_phiMin l) / 2 in                               (* 217 *)
    let phi := wrap_down (phiMean + PI) (wrap_up (phiMean - PI) phi) in           (* 220-221 *)
    if (Rleb phi (p_phiMax l) && Rleb (p_phiMin l) phi)%bool then                 (* 223 *)
      rbind (trunc_div (phi - p_phiMin l) (p_padAngle l)) (fun padNumber =>       (* 226 *)
      rbind (if Rltb r (p_rMin l) then Ok 0%Z
             else floor_div (r - p_rMin l) (p_rowHeight l)) (fun rowNum =>        (* 228 *)
      let rowNum := if (p_nRow l <=? rowNum)%Z then (p_nRow l - 1)%Z else rowNum in
      fpa_getPadIndex l rowNum padNumber))                                        (* 233 *)
    else
      rbind (fpa_edge_row l r phi (p_phiMin l)) (fun row_right =>
      rbind (fpa_edge_row l r phi (p_phiMax l)) (fun row_left =>
      rbind (fpa_getPadIndex l row_right 0) (fun right =>                         (* 279, 282 *)
      rmap (fun left =>                                                           (* 280, 282 *)
              if Rltb (fpa_getDistanceToPad l r phi right) (fpa_getDistanceToPad l r phi left)
              then right else left)
           (fpa_getPadIndex l row_left (p_nPadsInRow l - 1))))).

(** [fabs(_phiMax - _phiMin - 2*M_PI) < 1e-6], FixedPadAngleDiskLayout.cc 296, 315 *)
Definition fpa_full (l : fpa) : bool := Rltb (Rabs (p_phiMax l - p_phiMin l - 2 * PI)) (1 / 1000000).

(** getRightNeighbour, FixedPadAngleDiskLayout.cc 286-303 *)
Definition fpa_getRightNeighbour (l : fpa) (i : Z) : result Z :=
  let pn := (disk_padNumber i - 1)%Z in
  let rn := disk_rowNumber i in
  if (pn =? -1)%Z then
    if fpa_full l then fpa_getPadIndex l rn (p_nPadsInRow l - 1)
    else Throw (EGear "FixedPadAngleDiskLayout::getRightNeighbour: no right neighbour pad !")
  else fpa_getPadIndex l rn pn.

(** getLeftNeighbour, FixedPadAngleDiskLayout.cc 305-322 *)
Definition fpa_getLeftNeighbour (l : fpa) (i : Z) : result Z :=
  let pn := (disk_padNumber i + 1)%Z in
  let rn := disk_rowNumber i in
  if (pn =? p_nPadsInRow l)%Z then
    if fpa_full l then fpa_getPadIndex l rn 0
    else Throw (EGear "FixedPadAngleDiskLayout::getLeftNeighbour: no left neighbour pad !")
  else fpa_getPadIndex l rn pn.

(** isInsidePad(r,phi,padIndex), FixedPadAngleDiskLayout.cc 325-341 *)
Definition fpa_isInsidePad (l : fpa) (r phi : R) (i : Z) : bool :=
  let c := fpa_getPadCenter l i in
  negb (Rltb r (fst c - p_rowHeight l / 2) || Rltb (fst c + p_rowHeight l / 2) r
        || Rltb phi (snd c - p_padAngle l / 2) || Rltb (snd c + p_padAngle l / 2) phi)%bool.

(** isInsidePad(r,phi), FixedPadAngleDiskLayout.cc 343-349 *)
Definition fpa_isInsideAnyPad (l : fpa) (r phi : R) : bool :=
  negb (Rltb r (p_rMin l) || Rltb (p_rMax l) r || Rltb phi (p_phiMin l) || Rltb (p_phiMax l) phi)%bool.
