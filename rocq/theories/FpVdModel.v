(** VersatileDiskRowLayout again, in the arithmetic of the machine: every operation on doubles is rounded to the nearest double
    (ties to even; overflow left out).  The cosine is a parameter [cosd].  [_nPad] does not overflow. *)
From Coq Require Import ZArith List String Bool Reals.
From Flocq Require Import Core.
From Verif Require Import Base RBase DiskBase NumModel FpModel VdModel FpFpaModel.
Import ListNotations.
Open Scope string_scope.
Open Scope R_scope.

(** Row constructor, VersatileDiskRowLayout.cc 347-384; a centre radius of 0 is [UB] as in VdModel *)
Definition new_vrow_d (rowNumber nPads : Z) (rCentre padPitch_mm rowHeight padWidth_mm padHeight offset_mm : R) : result vrow :=
  if Reqb rCentre 0 then UB
  else
    let offset := fdiv offset_mm rCentre in                                                       (* 354 *)
    let turn := fmul (fmul rCentre 2) m_pi in
    let lo := Rltb offset (- two_pi) in                                                           (* 357 *)
    let offset_mm1 := if lo then fadd offset_mm turn else offset_mm in                            (* 360 *)
    let offset1 := if lo then fadd offset two_pi else offset in                                   (* 359 *)
    let hi := Rleb two_pi offset1 in                                                              (* 363 *)
    let offset_mm2 := if hi then fadd offset_mm1 turn else offset_mm1 in                          (* 366 *)
    let padPitch := fdiv padPitch_mm rCentre in                                                   (* 369 *)
    if Rltb two_pi (fmul padPitch (IZR nPads))                                                    (* 370 *)
    then Throw (EGear "gear::VersatileDiskRowLayout::addRow(): Error: Too many pads")
    else
      let offset2 := fdiv offset_mm2 rCentre in                                                   (* 379 *)
      Ok (mkV rowNumber nPads padPitch_mm padPitch padWidth_mm (fdiv padWidth_mm rCentre) rowHeight
              padHeight offset_mm2 offset2 rCentre
              (fadd offset2 (fmul padPitch (IZR nPads))) (fadd rCentre (fmul rowHeight (1 / 2))) 0).   (* 381-383 *)
(** row loop of addRow, 82-88 *)
Fixpoint vd_push_d (k : nat) (nPads : Z) (rCentre padPitch rowHeight padWidth padHeight offset : R) (l : vd) : sres vd unit :=
  match k with
  | O => SOk l tt
  | S k' =>
      match new_vrow_d (Z.of_nat (List.length (v_rows l))) nPads rCentre padPitch rowHeight padWidth padHeight offset with
      | Ok row => vd_push_d k' nPads (fadd rCentre rowHeight) padPitch rowHeight padWidth padHeight offset
                            (mkVd (v_nPad l) (v_rows l ++ [row]) (v_e0 l) (v_e1 l) (v_e2 l) (v_e3 l) (v_padIndices l ++ [None]))
      | Throw e => SThrow l e
      | UB => SUB
      end
  end.
(** new phi extent from the last row, 92-101 *)
Definition vd_extent_d (l : vd) (row : vrow) : R * R :=
  let one := (List.length (v_rows l) =? 1)%nat in
  let e2 := if (one || Rltb (v_offset row) (v_e2 l))%bool then v_offset row else v_e2 l in
  let e3 := if (one || Rltb (v_e3 l) (v_phiMax row))%bool then v_phiMax row else v_e3 l in
  if Rltb two_pi (fsub e3 e2) then (0, two_pi) else (e2, e3).
(** addRow, 53-102 *)
Definition vd_addRow_d (l : vd) (nPads : Z) (padPitch rowHeight offset padWidth padHeight : R) (rep : Z) : sres vd unit :=
  if (nPads <=? 0)%Z then SThrow l (EGear "number of pads must be larger than 0!")
  else if Rltb padPitch 0 then SThrow l (EGear "pad pitch must be positive!")
  else if Rltb padWidth 0 then SThrow l (EGear "pad width must be positive!")
  else if Rltb padPitch padWidth then SThrow l (EGear "pad width must be smaller or equal pad pitch!")
  else if Rleb rowHeight 0 then SThrow l (EGear "row height must be larger than 0!")
  else if (rep <=? 0)%Z then SThrow l (EGear "number of repitions must be positive!")
  else
    let padWidth := if Reqb padWidth 0 then padPitch else padWidth in
    let padHeight := if Reqb padHeight 0 then rowHeight else padHeight in
    let rCentre := fadd (v_e1 l) (fmul rowHeight (1 / 2)) in                                      (* 78 *)
    let l := mkVd (v_nPad l + rep * nPads) (v_rows l) (v_e0 l) (v_e1 l) (v_e2 l) (v_e3 l) (v_padIndices l) in
    match vd_push_d (Z.to_nat rep) nPads rCentre padPitch rowHeight padWidth padHeight offset l with
    | SOk l _ =>
        match rev (v_rows l) with
        | row :: _ =>
            let e := vd_extent_d l row in
            SOk (mkVd (v_nPad l) (v_rows l) (v_e0 l) (fadd (v_e1 l) (fmul (IZR rep) rowHeight)) (fst e) (snd e) (v_padIndices l)) tt   (* 91 *)
        | [] => SUB
        end
    | SThrow l e => SThrow l e
    | SUB => SUB
    end.
(** getPadCenter, 137-149 *)
Definition vd_getPadCenter_d (l : vd) (i : Z) : result (R * R) :=
  rmap (fun row => (v_rCentre row, fadd (v_offset row) (fmul (fadd (IZR (disk_padNumber i)) (1 / 2)) (v_padPitch row)))) (vd_row_of l i).

(** distances; [None] is a NaN, with which every comparison is false *)
Definition lt_nan (a b : option R) : bool := match a, b with Some x, Some y => Rltb x y | _, _ => false end.
Definition r_lo (row : vrow) : R := fsub (v_rCentre row) (fmul (v_rowHeight row) (1 / 2)).
Definition r_hi (row : vrow) : R := fadd (v_rCentre row) (fmul (v_rowHeight row) (1 / 2)).
Definition row_phi_max_d (row : vrow) : R := fadd (v_offset row) (fmul (IZR (v_nPads row)) (v_padPitch row)).
(** distanceToPhiMin and distanceToPhiMax, 456-502, for an angle that is from 0 to a turn, so that the loops there do not turn *)
Definition corner_d (cosd : R -> R) (row : vrow) (r phi edge : R) : option R :=
  let c := cosd (fsub edge phi) in
  let d0 := fsub (fadd (fmul (r_lo row) (r_lo row)) (fmul r r)) (fmul (fmul (fmul 2 (r_lo row)) r) c) in
  let d1 := fsub (fadd (fmul (r_hi row) (r_hi row)) (fmul r r)) (fmul (fmul (fmul 2 (r_hi row)) r) c) in
  let d := if Rltb d1 d0 then d1 else d0 in
  if Rltb d 0 then None else Some (to_double (sqrt d)).
(** Row::getNearestPad, 386-413, after the loops *)
Definition vrow_getNearestPad_d (cosd : R -> R) (row : vrow) (r phi : R) : result Z :=
  if Rltb phi (row_phi_max_d row) then                                                            (* 397 *)
    if Reqb (v_padPitch row) 0 then UB
    else rmap (disk_pack (v_rowNumber row)) (to_int (IZR (Zfloor (fdiv (fsub phi (v_offset row)) (v_padPitch row)))))
  else if lt_nan (corner_d cosd row r phi (v_offset row)) (corner_d cosd row r phi (row_phi_max_d row))
  then Ok (disk_pack (v_rowNumber row) 0)
  else Ok (disk_pack (v_rowNumber row) (v_nPads row - 1)).
(** Row::getDistanceToRow, 415-453, after the loops *)
Definition vrow_distance_d (cosd : R -> R) (row : vrow) (r phi : R) : option R :=
  if (Rleb (v_offset row) phi && Rleb phi (row_phi_max_d row))%bool then
    if (Rleb (r_lo row) r && Rleb r (r_hi row))%bool then Some 0
    else if Rltb r (r_lo row) then Some (fsub (r_lo row) r) else Some (fsub r (r_hi row))
  else
    let d1 := corner_d cosd row r phi (v_offset row) in
    let d2 := corner_d cosd row r phi (row_phi_max_d row) in
    if lt_nan d1 d2 then d1 else d2.
(** scan of getNearestPad, 289-302 *)
Fixpoint vd_scan_d (cosd : R -> R) (rows : list vrow) (r phi : R) (best : option (Z * option R)) : result (option (Z * option R)) :=
  match rows with
  | [] => Ok best
  | row :: t =>
      let d := vrow_distance_d cosd row r phi in
      let take := match best with None => true | Some (_, d0) => lt_nan d d0 end in
      if take then rbind (vrow_getNearestPad_d cosd row r phi) (fun p => vd_scan_d cosd t r phi (Some (p, d)))
      else vd_scan_d cosd t r phi best
  end.
(** getNearestPad, 286-308; every row wraps the angle in the same way, here it is done once *)
Definition vd_getNearestPad_d (cosd : R -> R) (fuel : nat) (l : vd) (r phi : R) : nearest :=
  match wrap_circle fuel phi with
  | None => Running
  | Some phi => Found
      (rbind (vd_scan_d cosd (v_rows l) r phi None) (fun b =>
       let p := match b with Some (p, _) => p | None => (-1)%Z end in
       if (p =? -1)%Z then Throw (EGear "VersatileDiskRowLayout::getNearestPad(): no pad rows defined.") else Ok p))
  end.
