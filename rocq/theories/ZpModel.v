(** Model of ZPlanarLayerLayoutImpl (src/gearimpl/ZPlanarLayerLayout.cc,
    include/gear/gearimpl/ZPlanarLayerLayoutImpl.h) and ZPlanarParametersImpl
    (src/gearimpl/ZPlanarParametersImpl.cc, include/gear/gearimpl/ZPlanarParametersImpl.h).
    Simplifications: doubles and floats are real numbers (the borders handed to distanceToPlane and
    correctToBorderPoint and the two lengths in getMaxRadius are converted to float in the code; that
    rounding is left out); an angle that would be NaN is [None]; zeros have no sign. *)
From Coq Require Import ZArith List Bool Reals.
From Verif Require Import Base RBase VecModel.
Import ListNotations.
Open Scope R_scope.

(** struct Layer, ZPlanarLayerLayoutImpl.h 28-37 *)
Record zlayer := mkZL {
  zl_n : Z; zl_phi : R; zl_d : R; zl_off : R; zl_t : R; zl_len : R; zl_w : R; zl_rad : R }.

(** the six numbers addLayer takes for the ladder and again for the sensitive part *)
Record zpart := mkZP { q_d : R; q_off : R; q_t : R; q_len : R; q_w : R; q_rad : R }.
Record zargs := mkZA { za_n : Z; za_phi0 : R; za_lad : zpart; za_sen : zpart }.

(** data members of ZPlanarParametersImpl, ZPlanarParametersImpl.h 151-163, and of its _layer,
    ZPlanarLayerLayoutImpl.h 164-167 *)
Record zplanar := mkZ {
  z_l : list zlayer; z_s : list zlayer;
  z_type : Z; z_rIn : R; z_rOut : R; z_half : R; z_gap : R; z_rad : R }.
(** ZPlanarParametersImpl.cc 17-24 *)
Definition new_zplanar (type : Z) (rIn rOut half gap rad : R) : zplanar := mkZ [] [] type rIn rOut half gap rad.

(** addLayer, ZPlanarLayerLayout.cc 6-46 (ZPlanarParametersImpl.h 70-80 only forwards) *)
Definition layer_of (a : zargs) (q : zpart) : zlayer :=
  mkZL (za_n a) (PI / 2 - za_phi0 a) (q_d q) (q_off q) (q_t q) (q_len q) (q_w q) (q_rad q).
Definition zp_addLayer (p : zplanar) (a : zargs) : zplanar :=
  mkZ (z_l p ++ [layer_of a (za_lad a)]) (z_s p ++ [layer_of a (za_sen a)])
      (z_type p) (z_rIn p) (z_rOut p) (z_half p) (z_gap p) (z_rad p).

(** ** The getters of the layout, ZPlanarLayerLayoutImpl.h 46-118 *)
Definition zp_getNLayers (p : zplanar) : Z := Z.of_nat (List.length (z_l p)).
Definition of_ladder {A} (g : zlayer -> A) (p : zplanar) (i : Z) : result A := rmap g (at_ (z_l p) i).
Definition of_sens {A} (g : zlayer -> A) (p : zplanar) (i : Z) : result A := rmap g (at_ (z_s p) i).
Definition zp_getNLadders := of_ladder zl_n.
Definition zp_getPhi0 := of_ladder (fun l => PI / 2 - zl_phi l).
Definition zp_getLadderRadLength := of_ladder zl_rad.
Definition zp_getLadderDistance := of_ladder zl_d.
Definition zp_getLadderThickness := of_ladder zl_t.
Definition zp_getLadderOffset := of_ladder zl_off.
Definition zp_getLadderWidth := of_ladder zl_w.
Definition zp_getLadderLength := of_ladder zl_len.
Definition zp_getSensitiveRadLength := of_sens zl_rad.
Definition zp_getSensitiveDistance := of_sens zl_d.
Definition zp_getSensitiveThickness := of_sens zl_t.
Definition zp_getSensitiveOffset := of_sens zl_off.
Definition zp_getSensitiveWidth := of_sens zl_w.
Definition zp_getSensitiveLength := of_sens zl_len.

(** getMaxRadius, ZPlanarLayerLayout.cc 49-65 *)
Definition maxRadius (l : zlayer) : R :=
  let d := zl_d l + zl_t l in let w := zl_w l / 2 + Rabs (zl_off l) in sqrt (d * d + w * w).
Definition zp_getMaxRadius (p : zplanar) (i : Z) (sensitive : bool) : result R :=
  rmap maxRadius (at_ (if sensitive then z_s p else z_l p) i).
(** getStartInnerPhi, ZPlanarLayerLayout.cc 68-78; getEndInnerPhi, 81-91.  A distance of 0 gives an
    infinite quotient in the code and is left to the division by zero of the reals here; the theorems
    ask for a positive distance. *)
Definition startInnerPhi (l : zlayer) : R := zl_phi l + atan ((- zl_w l / 2 - zl_off l) / zl_d l).
Definition endInnerPhi (l : zlayer) : R := zl_phi l + atan ((zl_w l / 2 - zl_off l) / zl_d l).
Definition zp_getStartInnerPhi (p : zplanar) (i : Z) (sensitive : bool) : result R :=
  rmap startInnerPhi (at_ (if negb sensitive then z_l p else z_s p) i).
Definition zp_getEndInnerPhi (p : zplanar) (i : Z) (sensitive : bool) : result R :=
  rmap endInnerPhi (at_ (if negb sensitive then z_l p else z_s p) i).
(** getStartOuterPhi, ZPlanarLayerLayout.cc 95-105; getEndOuterPhi, 108-118: the flag is inverted *)
Definition startOuterPhi (l : zlayer) : R := zl_phi l - atan ((zl_w l / 2 + zl_off l) / (zl_d l + zl_t l)).
Definition endOuterPhi (l : zlayer) : R := zl_phi l + atan ((zl_w l / 2 - zl_off l) / (zl_d l + zl_t l)).
Definition zp_getStartOuterPhi (p : zplanar) (i : Z) (sensitive : bool) : result R :=
  rmap startOuterPhi (at_ (if sensitive then z_l p else z_s p) i).
Definition zp_getEndOuterPhi (p : zplanar) (i : Z) (sensitive : bool) : result R :=
  rmap endOuterPhi (at_ (if sensitive then z_l p else z_s p) i).
(** getThicknessForPhi, ZPlanarLayerLayout.cc 121-155 *)
Definition zp_getThicknessForPhi (p : zplanar) (i : Z) (phi : R) (sensitive : bool) : result R :=
  rbind (at_ (if negb sensitive then z_l p else z_s p) i) (fun l =>
  rbind (zp_getStartInnerPhi p i sensitive) (fun si =>
  rbind (zp_getEndInnerPhi p i sensitive) (fun ei =>
  if (Rltb phi si || Rltb ei phi)%bool then Ok (-1) else                          (* 134-136 *)
  rbind (zp_getStartOuterPhi p i sensitive) (fun so =>
  rbind (zp_getEndOuterPhi p i sensitive) (fun eo =>
  if (Rleb so phi && Rleb phi eo)%bool then Ok (zl_t l / cos phi)                 (* 139-141 *)
  else
    let distanceSpacePoint := zl_d l * tan phi in                                 (* 146 *)
    let cutAwayLength := zl_w l / 2 - zl_off l - distanceSpacePoint in            (* 149 *)
    Ok (cutAwayLength / sin phi)))))).                                            (* 152-154 *)

(** ** Helpers of ZPlanarParametersImpl *)
(** _EPSILON, ZPlanarParametersImpl.cc 5 *)
Definition EPS : R := 1 / 10000.
(** correctPhiRange, ZPlanarParametersImpl.cc 815-826 *)
Definition correctPhiRange (phi : R) : R :=
  if Rltb PI phi then phi - 2 * PI else if Rleb phi (- PI) then phi + 2 * PI else phi.
(** getPhiPoint, ZPlanarParametersImpl.cc 829-855: for want of elses, the values of the first three
    branches are always overwritten.  Division by a zero y gives an infinite angle argument, 0/0 NaN. *)
Definition getPhiPoint (p : vec) : option R :=
  let raw :=
    if (negb (Reqb (vx p) 0) && Rltb (vy p) 0)%bool then Some (atan (vx p / vy p) + PI)
    else if Reqb (vy p) 0
         then if Rltb 0 (vx p) then Some (PI / 2) else if Rltb (vx p) 0 then Some (- PI / 2) else None
         else Some (atan (vx p / vy p)) in
  match raw with Some phi => Some (correctPhiRange phi) | None => None end.
(** isEqual for numbers, ZPlanarParametersImpl.cc 859-881 *)
Definition isEqual (a b : R) : bool :=
  if Reqb a b then true
  else if Reqb (a * b) 0 then Rltb (Rabs (a - b)) EPS
  else if (Rltb (Rabs a) EPS && Rltb (Rabs b) EPS)%bool then true
  else Rltb (Rabs (2 * (a - b)) / (Rabs a + Rabs b)) EPS.
(** isEqual for vectors, ZPlanarParametersImpl.cc 884-892: exact *)
Definition isEqualV (a b : vec) : bool := veqb a b.
(** differsLess, ZPlanarParametersImpl.cc 895-900 *)
Definition differsLess (a b : R) : bool := Rltb (Rabs a + Rabs b) EPS.
(** the test at ZPlanarParametersImpl.cc 111-114 and again at 264-267; every comparison with NaN is false *)
Definition isInRange (pPhi : option R) (sPhi ePhi : R) : bool :=
  match pPhi with
  | None => false
  | Some f => (Rleb sPhi f && Rleb f ePhi) || (Rltb ePhi sPhi && Rleb f ePhi) || (Rltb ePhi sPhi && Rleb sPhi f)
  end%bool.
(** nBase and nSide, ZPlanarParametersImpl.cc 121-131; nZ, 133-139 *)
Definition nBase (phi : R) : vec := mkVec (sin phi) (cos phi) 0.
Definition nSide (phi : R) : vec := mkVec (cos phi) (- sin phi) 0.
Definition nZ (p : vec) : vec := mkVec 0 0 (if Rltb (vz p) 0 then - 1 else 1).

(** correctToBorderPoint, ZPlanarParametersImpl.cc 776-812 *)
Definition correctToBorderPoint (w u v : vec) (minU maxU minV maxV : R) : vec :=
  let nu := vx w * vx u + vy w * vy u + vz w * vz u in
  let nv := vx w * vx v + vy w * vy v + vz w * vz v in
  let gu := if Rltb maxU nu then maxU else if Rltb nu minU then minU else nu in
  let gv := if Rltb maxV nv then maxV else if Rltb nv minV then minV else nv in
  let changed := (Rltb nu minU || Rltb maxU nu || Rltb nv minV || Rltb maxV nv)%bool in
  if negb changed then w
  else mkVec (gu * vx u + gv * vx v) (gu * vy u + gv * vy v) (gu * vz u + gv * vz v).

(** distanceToPlane, ZPlanarParametersImpl.cc 669-737; the messages are not modelled *)
Definition distanceToPlane (p r n u v : vec) (minU maxU minV maxV : R) : vec :=
  if (Reqb (vx n) 0 && Reqb (vy n) 0 && Reqb (vz n) 0)%bool then vzero
  else if negb (isEqual (vx n * (vx u + vx v) + vy n * (vy u + vy v) + vz n * (vz u + vz v)) 0) then vzero
  else
    let d := vx r * vx n + vy r * vy n + vz r * vz n in
    let t := - (vx n * vx p + vy n * vy p + vz n * vz p - d) in
    let pn := mkVec (vx p + vx n * t) (vy p + vy n * t) (vz p + vz n * t) in
    let vn := mkVec (vx pn - vx r) (vy pn - vy r) (vz pn - vz r) in
    let c := correctToBorderPoint vn u v minU maxU minV maxV in
    mkVec (vx r + vx c - vx p) (vy r + vy c - vy p) (vz r + vz c - vz p).

(** planeLineIntersection, ZPlanarParametersImpl.cc 741-772; the normals it is called with are unit
    vectors, so the division in 744 is defined *)
Definition planeLineIntersection (r n p v : vec) : vec :=
  let distance := (vx r * vx n + vy r * vy n + vz r * vz n) / sqrt (vx n * vx n + vy n * vy n + vz n * vz n) in
  let num := distance - vx n * vx p - vy n * vy p - vz n * vz p in
  let den := vx n * vx v + vy n * vy v + vz n * vz v in
  if Reqb den 0 then vzero
  else let t := num / den in
       if Rltb t 0 then vzero
       else mkVec (vx p + t * vx v) (vy p + t * vy v) (vz p + t * vz v).

(** the extensions computed at ZPlanarParametersImpl.cc 75-92, 234-251, 451-465 *)
Definition x_zEnd (gap : R) (l : zlayer) : R := zl_len l + gap / 2.
Definition x_left (l : zlayer) : R := - zl_w l / 2 - zl_off l.
Definition x_right (l : zlayer) : R := zl_w l / 2 - zl_off l.
(** deltaPhi, 95, 232, 449; in a layer without ladders it is not used *)
Definition deltaPhi (l : zlayer) : R := 2 * PI / IZR (zl_n l).
(** phi of ladder i, 103-104, 256-257, 479-480 *)
Definition ladderPhi (l : zlayer) (i : Z) : R := correctPhiRange (zl_phi l + IZR i * deltaPhi l).

(** ** isPointInLadder, ZPlanarParametersImpl.cc 27-188 *)
(** what is compared for one ladder, 120-165 *)
Definition hits_ladder (gap : R) (l : zlayer) (p : vec) (i : Z) : bool :=
  let phi := ladderPhi l i in
  let b := nBase phi in
  let d := zl_d l in
  let r := mkVec (d * vx b) (d * vy b) (d * vz b) in                              (* 140 *)
  let tv := distanceToPlane p r b (nSide phi) (nZ p) (x_left l) (x_right l) (gap / 2) (x_zEnd gap l) in
  let c := sqrt (vx tv * vx tv + vy tv * vy tv + vz tv * vz tv) in                (* 146 *)
  (differsLess (vx b) (vx tv) || isEqual (vx tv) (- c * vx b)) &&
  (differsLess (vy b) (vy tv) || isEqual (vy tv) (- c * vy b)) &&
  (differsLess (vz b) (vz tv) || isEqual (vz tv) (- c * vz b)) &&
  (Rleb c (zl_t l) || isEqual c (zl_t l)).                                        (* 161-164 *)
(** the loop over the ladders, 101-182, from ladder [i] on with [n] to go *)
Fixpoint ladder_loop (gap : R) (l : zlayer) (p : vec) (pPhi : option R) (n : nat) (i : Z) : option Z :=
  match n with
  | O => None
  | S n' =>
      let sPhi := correctPhiRange (startInnerPhi l + IZR i * deltaPhi l - EPS) in (* 107 *)
      let ePhi := correctPhiRange (endInnerPhi l + IZR i * deltaPhi l + EPS) in   (* 108 *)
      if negb (isInRange pPhi sPhi ePhi) then ladder_loop gap l p pPhi n' (i + 1)
      else if hits_ladder gap l p i then Some i
      else ladder_loop gap l p pPhi n' (i + 1)
  end.
(** the sensorID filled in at 167-177 (its sensor field is always 0) *)
Record sensorID := mkSID { s_layer : Z; s_side : Z; s_module : Z }.
(** the loop over the layers, 49-184.  The two vectors of layers have the same length and agree in
    NLadders and internalPhi0, so one list is enough. *)
Fixpoint layer_loop (gap : R) (ls : list zlayer) (p : vec) (pPhi : option R) (k : Z) : option sensorID :=
  match ls with
  | [] => None
  | l :: ls' =>
      let pRadius := sqrt (vx p * vx p + vy p * vy p) in                          (* 44 *)
      if Rltb pRadius (zl_d l - EPS) then layer_loop gap ls' p pPhi (k + 1)       (* 53-58 *)
      else if Rltb (maxRadius l + EPS) pRadius then layer_loop gap ls' p pPhi (k + 1)            (* 61-65 *)
      else if Rltb (zl_len l + gap / 2 + EPS) (Rabs (vz p)) then layer_loop gap ls' p pPhi (k + 1) (* 68-73 *)
      else match ladder_loop gap l p pPhi (Z.to_nat (zl_n l)) 0 with
           | Some i => Some (mkSID k (if Rleb 0 (vz p) then 1 else -1) (if (i =? 0)%Z then 0 else zl_n l - i))
           | None => layer_loop gap ls' p pPhi (k + 1)
           end
  end.
Definition z_part (z : zplanar) (sensitive : bool) : list zlayer := if sensitive then z_s z else z_l z.
(** [Some id] is the return value true with *sensorID = id, [None] is false *)
Definition isPointInLadder (z : zplanar) (p : vec) (sensitive : bool) : option sensorID :=
  if (Rltb (1 / 1000) (Rabs (z_half z)) &&
      (Rltb (z_half z + z_gap z / 2) (Rabs (vz p)) || Rltb (Rabs (vz p)) (z_gap z / 2)))%bool
  then None                                                                       (* 32-41 *)
  else layer_loop (z_gap z) (z_part z sensitive) p (getPhiPoint p) 0.

(** ** distanceToNearestLadder, ZPlanarParametersImpl.cc 193-434 *)
Definition vlen (v : vec) : R := sqrt (vx v * vx v + vy v * vy v + vz v * vz v).
(** (minDistance, vPointPlane) *)
Definition best := (R * vec)%type.
(** 342-344: the bases are taken also at equal distance *)
Definition take_le (b : best) (v : vec) : best := if Rleb (vlen v) (fst b) then (vlen v, v) else b.
(** 386-388, 418-420 *)
Definition take_lt (b : best) (v : vec) : best := if Rltb (vlen v) (fst b) then (vlen v, v) else b.
(** the six faces of one ladder, 300-426 *)
Definition face_base (gap : R) (l : zlayer) (p : vec) (phi d : R) : vec :=
  distanceToPlane p (vadd (vscale (zl_d l) (nBase phi)) (vscale d (nBase phi))) (nBase phi) (nSide phi) (nZ p)
    (x_left l) (x_right l) (gap / 2) (x_zEnd gap l).
Definition face_side (gap : R) (l : zlayer) (p : vec) (phi d : R) : vec :=
  distanceToPlane p (vadd (vscale (zl_d l) (nBase phi)) (vscale d (nSide phi))) (nSide phi) (nBase phi) (nZ p)
    0 (zl_t l) (gap / 2) (x_zEnd gap l).
Definition face_z (l : zlayer) (p : vec) (phi d : R) : vec :=
  distanceToPlane p (vadd (vscale (zl_d l) (nBase phi)) (vscale d (nZ p))) (nZ p) (nBase phi) (nSide phi)
    0 (zl_t l) (x_left l) (x_right l).
Definition six_faces (gap : R) (l : zlayer) (p : vec) (phi : R) (b : best) : best :=
  let b := take_le b (face_base gap l p phi 0) in
  let b := take_le b (face_base gap l p phi (zl_t l)) in
  let b := take_lt b (face_side gap l p phi (x_left l)) in
  let b := take_lt b (face_side gap l p phi (x_right l)) in
  let b := take_lt b (face_z l p phi (x_zEnd gap l)) in
  take_lt b (face_z l p phi (gap / 2)).
(** the loop over the ladders, 254-428 *)
Fixpoint near_ladders (gap : R) (l : zlayer) (p : vec) (pPhi : option R) (n : nat) (i : Z) (b : best) : best :=
  match n with
  | O => b
  | S n' =>
      let phi := ladderPhi l i in
      let sPhi := correctPhiRange (phi - deltaPhi l) in                           (* 260 *)
      let ePhi := correctPhiRange (phi + deltaPhi l) in                           (* 261 *)
      near_ladders gap l p pPhi n' (i + 1) (if isInRange pPhi sPhi ePhi then six_faces gap l p phi b else b)
  end.
(** the loop over the layers, 229-430 *)
Definition near_layers (gap : R) (ls : list zlayer) (p : vec) (pPhi : option R) (b : best) : best :=
  fold_left (fun b l => near_ladders gap l p pPhi (Z.to_nat (zl_n l)) 0 b) ls b.
(** 193-434.  In the special case of the origin, 206-216, the vector of the first ladder (never of the
    sensitive part) is made from cylindrical coordinates with the angle -internalPhi0. *)
Definition distanceToNearestLadder (z : zplanar) (p : vec) (sensitive : bool) : vec :=
  match isPointInLadder z p sensitive with
  | Some _ => vzero
  | None =>
      if (Reqb (vx p) 0 && Reqb (vy p) 0 && Reqb (vz p) 0)%bool
      then match z_l z with
           | l :: _ => vcylindrical (zl_d l) (- zl_phi l) (z_gap z / 2)
           | [] => vzero
           end
      else snd (near_layers (z_gap z) (z_part z sensitive) p (getPhiPoint p) (9999999 / 100, vzero))
  end.

(** ** intersectionLadder, ZPlanarParametersImpl.cc 440-665 *)
(** (currentLength, currentPoint) *)
(** what is done with each face, e.g. 519-547: [r] and [n] give the plane, [s] is spacePoint *)
Definition try_face (p v s r n u w : vec) (minU maxU minV maxV : R) (b : best) : best :=
  let q := planeLineIntersection r n p v in
  let vip := vsub q p in
  let vn := vsub q s in
  if isEqualV (correctToBorderPoint vn u w minU maxU minV maxV) vn
  then (if Rltb (vlen vip) (fst b) then (vlen vip, q) else b)
  else b.
Definition eZ : vec := mkVec 0 0 1.
(** one ladder on one side in z, 479-654 *)
Definition cut_ladder (l : zlayer) (p v : vec) (zStart zEnd : R) (i : Z) (b : best) : best :=
  let phi := ladderPhi l i in
  let s := vscale (zl_d l) (nBase phi) in
  let t := zl_t l in
  let b := try_face p v s s (nBase phi) (nSide phi) eZ (x_left l) (x_right l) zStart zEnd b in
  let b := try_face p v s (vscale (zl_d l + t) (nBase phi)) (nBase phi) (nSide phi) eZ (x_left l) (x_right l) zStart zEnd b in
  let b := try_face p v s (vadd s (vscale (x_left l) (nSide phi))) (nSide phi) (nBase phi) eZ 0 t zStart zEnd b in
  let b := try_face p v s (vadd s (vscale (x_right l) (nSide phi))) (nSide phi) (nBase phi) eZ 0 t zStart zEnd b in
  let b := try_face p v s (vadd s (vscale zEnd eZ)) eZ (nBase phi) (nSide phi) 0 t (x_left l) (x_right l) b in
  try_face p v s (vadd s (vscale zStart eZ)) eZ (nBase phi) (nSide phi) 0 t (x_left l) (x_right l) b.
(** the loop over the ladders, 477-657 *)
Fixpoint cut_ladders (l : zlayer) (p v : vec) (zStart zEnd : R) (n : nat) (i : Z) (b : best) : best :=
  match n with
  | O => b
  | S n' => cut_ladders l p v zStart zEnd n' (i + 1) (cut_ladder l p v zStart zEnd i b)
  end.
(** one layer, 446-661: first the side at positive z, then zEnd and zStart are negated *)
Definition cut_layer (gap : R) (p v : vec) (b : best) (l : zlayer) : best :=
  let n := Z.to_nat (zl_n l) in
  let b := cut_ladders l p v (gap / 2) (x_zEnd gap l) n 0 b in
  cut_ladders l p v (- (gap / 2)) (- x_zEnd gap l) n 0 b.
Definition intersectionLadder (z : zplanar) (p v : vec) (sensitive : bool) : vec :=
  snd (fold_left (cut_layer (z_gap z) p v) (z_part z sensitive) (99999, vzero)).
