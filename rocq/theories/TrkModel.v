(** Model of the beam telescopes: SiPlanesLayerLayoutImpl, SiPlanesParametersImpl
    (src/gearimpl/SiPlanesLayerLayout.cc, SiPlanesParametersImpl.cc and their headers in
    include/gear/gearimpl) and TrackerPlanesLayerLayoutImpl, TrackerPlanesParametersImpl
    (src/gearimpl/TrackerPlanesLayerLayout.cc, TrackerPlanesParametersImpl.cc and their headers).
    Doubles are reals; sizes of vectors are unbounded. *)
From Coq Require Import ZArith List String Bool Reals.
From Verif Require Import Base RBase.
Import ListNotations.
Open Scope R_scope.

(** ** What all plates have in common: struct Layer, SiPlanesLayerLayoutImpl.h 23-38, and the first
    members of SensLayer (41-52) and of the classes of TrackerPlanesLayerLayoutImpl.h 25-47 and 118-140 *)
Record plate := mkPl {
  pl_ID : Z; pl_X : R; pl_Y : R; pl_Z : R; pl_RXY : R; pl_RZX : R; pl_RZY : R; pl_SX : R; pl_SY : R; pl_T : R; pl_Rad : R }.
(** the default constructors, SiPlanesLayerLayoutImpl.h 36, TrackerPlanesLayerLayoutImpl.h 51 *)
Definition plate0 : plate := mkPl 0 0 0 0 0 0 0 0 0 0 0.

(** the members of type double *)
Inductive pfield := FX | FY | FZ | FRXY | FRZX | FRZY | FSX | FSY | FT | FRad.
Definition pget (f : pfield) (p : plate) : R :=
  match f with
  | FX => pl_X p | FY => pl_Y p | FZ => pl_Z p | FRXY => pl_RXY p | FRZX => pl_RZX p | FRZY => pl_RZY p
  | FSX => pl_SX p | FSY => pl_SY p | FT => pl_T p | FRad => pl_Rad p
  end.
Definition pset (f : pfield) (v : R) (p : plate) : plate :=
  let '(mkPl i x y z a b c sx sy t r) := p in
  match f with
  | FX => mkPl i v y z a b c sx sy t r
  | FY => mkPl i x v z a b c sx sy t r
  | FZ => mkPl i x y v a b c sx sy t r
  | FRXY => mkPl i x y z v b c sx sy t r
  | FRZX => mkPl i x y z a v c sx sy t r
  | FRZY => mkPl i x y z a b v sx sy t r
  | FSX => mkPl i x y z a b c v sy t r
  | FSY => mkPl i x y z a b c sx v t r
  | FT => mkPl i x y z a b c sx sy v r
  | FRad => mkPl i x y z a b c sx sy t v
  end.
Definition pset_ID (v : Z) (p : plate) : plate :=
  let '(mkPl _ x y z a b c sx sy t r) := p in mkPl v x y z a b c sx sy t r.

(** ** SiPlanes *)
(** struct SensLayer, SiPlanesLayerLayoutImpl.h 41-72 *)
Record sens := mkSe {
  se_plate : plate; se_NX : Z; se_NY : Z; se_PX : R; se_PY : R; se_Res : R; se_ResX : R; se_ResY : R;
  se_R1 : R; se_R2 : R; se_R3 : R; se_R4 : R }.
Definition sens0 : sens := mkSe plate0 0 0 0 0 0 0 0 0 0 0 0.

(** data members, SiPlanesLayerLayoutImpl.h 276-283 and SiPlanesParametersImpl.h 233-239 *)
Record siplanes := mkSi {
  si_l : list plate; si_s : list sens; si_dl : plate; si_ds : sens; si_id : Z; si_type : Z; si_num : Z }.
(** SiPlanesParametersImpl.cc 8-12 *)
Definition new_siplanes (id type num : Z) : siplanes := mkSi [] [] plate0 sens0 id type num.

(** addLayer, SiPlanesLayerLayout.cc 58-122 (SiPlanesParametersImpl.h 66-103 forwards): the arguments
    in the members they are stored in *)
Definition si_addLayer (s : siplanes) (l : plate) (e : sens) : siplanes :=
  mkSi (si_l s ++ [l]) (si_s s ++ [e]) (si_dl s) (si_ds s) (si_id s) (si_type s) (si_num s).
(** the overload without rotations and resolutions, SiPlanesParametersImpl.h 107-130 *)
Definition si_addLayer_old (s : siplanes) (lID : Z) (lX lY lZ lSX lSY lT lRad : R)
  (sID : Z) (sX sY sZ sSX sSY sT : R) (nX nY : Z) (pX pY res r1 r2 r3 r4 sRad : R) : siplanes :=
  si_addLayer s (mkPl lID lX lY lZ 0 0 0 lSX lSY lT lRad)
                (mkSe (mkPl sID sX sY sZ 0 0 0 sSX sSY sT sRad) nX nY pX pY res res res r1 r2 r3 r4).
(** the same overload of the layout, SiPlanesLayerLayout.cc 13-56: the resolutions are 0 *)
Definition layout_addLayer_old (s : siplanes) (lID : Z) (lX lY lZ lSX lSY lT lRad : R)
  (sID : Z) (sX sY sZ sSX sSY sT : R) (nX nY : Z) (pX pY res r1 r2 r3 r4 sRad : R) : siplanes :=
  si_addLayer s (mkPl lID lX lY lZ 0 0 0 lSX lSY lT lRad)
                (mkSe (mkPl sID sX sY sZ 0 0 0 sSX sSY sT sRad) nX nY pX pY res 0 0 r1 r2 r3 r4).
(** addDUT, SiPlanesLayerLayout.cc 124-176 (SiPlanesParametersImpl.h 163-196 forwards): the members
    that are not given keep their defaults *)
Definition si_addDUT (s : siplanes) (lID : Z) (lX lY lZ lSX lSY lT lRad : R)
  (sID : Z) (sX sY sZ sSX sSY sT : R) (nX nY : Z) (pX pY res r1 r2 r3 r4 sRad : R) : siplanes :=
  mkSi (si_l s) (si_s s) (mkPl lID lX lY lZ 0 0 0 lSX lSY lT lRad)
       (mkSe (mkPl sID sX sY sZ 0 0 0 sSX sSY sT sRad) nX nY pX pY res 0 0 r1 r2 r3 r4)
       (si_id s) (si_type s) (si_num s).

(** the further members of the sensitive part *)
Inductive sfield := SPlate (f : pfield) | SPX | SPY | SRes | SResX | SResY | SR1 | SR2 | SR3 | SR4.
Definition sget (f : sfield) (e : sens) : R :=
  match f with
  | SPlate g => pget g (se_plate e) | SPX => se_PX e | SPY => se_PY e | SRes => se_Res e
  | SResX => se_ResX e | SResY => se_ResY e | SR1 => se_R1 e | SR2 => se_R2 e | SR3 => se_R3 e | SR4 => se_R4 e
  end.
Definition sset (f : sfield) (v : R) (e : sens) : sens :=
  let '(mkSe p nx ny px py r rx ry a b c d) := e in
  match f with
  | SPlate g => mkSe (pset g v p) nx ny px py r rx ry a b c d
  | SPX => mkSe p nx ny v py r rx ry a b c d
  | SPY => mkSe p nx ny px v r rx ry a b c d
  | SRes => mkSe p nx ny px py v rx ry a b c d
  | SResX => mkSe p nx ny px py r v ry a b c d
  | SResY => mkSe p nx ny px py r rx v a b c d
  | SR1 => mkSe p nx ny px py r rx ry v b c d
  | SR2 => mkSe p nx ny px py r rx ry a v c d
  | SR3 => mkSe p nx ny px py r rx ry a b v d
  | SR4 => mkSe p nx ny px py r rx ry a b c v
  end.
Inductive sint := SID | SNX | SNY.
Definition sgetZ (f : sint) (e : sens) : Z := match f with SID => pl_ID (se_plate e) | SNX => se_NX e | SNY => se_NY e end.
Definition ssetZ (f : sint) (v : Z) (e : sens) : sens :=
  let '(mkSe p nx ny px py r rx ry a b c d) := e in
  match f with
  | SID => mkSe (pset_ID v p) nx ny px py r rx ry a b c d
  | SNX => mkSe p v ny px py r rx ry a b c d
  | SNY => mkSe p nx v px py r rx ry a b c d
  end.

(** getters, SiPlanesLayerLayoutImpl.h 80-96, 112-132, 139-152 *)
Definition si_getNLayers (s : siplanes) : Z := Z.of_nat (List.length (si_l s)).
Definition si_getID (s : siplanes) (i : Z) : result Z := rmap pl_ID (at_ (si_l s) i).
Definition si_getLayer (f : pfield) (s : siplanes) (i : Z) : result R := rmap (pget f) (at_ (si_l s) i).
Definition si_getSensitive (f : sfield) (s : siplanes) (i : Z) : result R := rmap (sget f) (at_ (si_s s) i).
Definition si_getSensitiveZ (f : sint) (s : siplanes) (i : Z) : result Z := rmap (sgetZ f) (at_ (si_s s) i).

(** [v.at(i) = change] *)
Definition upd {A} (g : A -> A) (l : list A) (i : Z) : result (list A) :=
  rbind (at_ l i) (fun x => Ok (firstn (Z.to_nat i) l ++ g x :: skipn (S (Z.to_nat i)) l)).
Definition with_l (s : siplanes) (l : list plate) : siplanes := mkSi l (si_s s) (si_dl s) (si_ds s) (si_id s) (si_type s) (si_num s).
Definition with_s (s : siplanes) (e : list sens) : siplanes := mkSi (si_l s) e (si_dl s) (si_ds s) (si_id s) (si_type s) (si_num s).
(** setters, SiPlanesLayerLayoutImpl.h 99-109, 125-136, 155-165: an exception leaves the object as it is *)
Definition si_setID (s : siplanes) (i v : Z) : result siplanes := rmap (with_l s) (upd (pset_ID v) (si_l s) i).
Definition si_setLayer (f : pfield) (s : siplanes) (i : Z) (v : R) : result siplanes := rmap (with_l s) (upd (pset f v) (si_l s) i).
Definition si_setSensitive (f : sfield) (s : siplanes) (i : Z) (v : R) : result siplanes := rmap (with_s s) (upd (sset f v) (si_s s) i).
Definition si_setSensitiveZ (f : sint) (s : siplanes) (i v : Z) : result siplanes := rmap (with_s s) (upd (ssetZ f v) (si_s s) i).

(** ** TrackerPlanes *)
(** TrackerPlanesMaterialLayerImpl, TrackerPlanesLayerLayoutImpl.h 20-47 *)
Record material := mkMa { ma_plate : plate; ma_info : string }.
(** TrackerPlanesSensitiveLayerImpl, TrackerPlanesLayerLayoutImpl.h 113-153 *)
Record sensor := mkSr {
  sr_plate : plate; sr_info : string; sr_NX : Z; sr_NY : Z; sr_PX : R; sr_PY : R; sr_ResX : R; sr_ResY : R }.
(** TrackerPlanesLayerImpl, TrackerPlanesLayerLayoutImpl.h 251-265 *)
Record tplayer := mkTL { tl_ID : Z; tl_info : string; tl_mat : list material; tl_sen : list sensor }.
(** TrackerPlanesLayerImpl.h 270-271 *)
Definition new_tplayer : tplayer := mkTL 0 "" [] [].
(** addMaterialLayer, addSensitiveLayer: TrackerPlanesLayerLayout.cc 12-36 and 38-70; setNpixelY takes
    a double, but every int is one *)
Definition addMaterialLayer (l : tplayer) (m : material) : tplayer := mkTL (tl_ID l) (tl_info l) (tl_mat l ++ [m]) (tl_sen l).
Definition addSensitiveLayer (l : tplayer) (e : sensor) : tplayer := mkTL (tl_ID l) (tl_info l) (tl_mat l) (tl_sen l ++ [e]).
(** setID, setInfo, TrackerPlanesLayerLayoutImpl.h 306-310 *)
Definition tl_setID (l : tplayer) (v : Z) : tplayer := mkTL v (tl_info l) (tl_mat l) (tl_sen l).
Definition tl_setInfo (l : tplayer) (v : string) : tplayer := mkTL (tl_ID l) v (tl_mat l) (tl_sen l).

(** data members, TrackerPlanesLayerLayoutImpl.h 363-369 and TrackerPlanesParametersImpl.h 73-79 *)
Record tplanes := mkTP { tp_layers : list tplayer; tp_lID : Z; tp_linfo : string; tp_id : Z; tp_type : Z; tp_num : Z }.
(** TrackerPlanesParametersImpl.cc 8-12 *)
Definition new_tplanes (id type num : Z) : tplanes := mkTP [] 0 "" id type num.
(** addLayer, TrackerPlanesLayerLayoutImpl.h 379-381: a copy is stored *)
Definition tp_addLayer (t : tplanes) (l : tplayer) : tplanes :=
  mkTP (tp_layers t ++ [l]) (tp_lID t) (tp_linfo t) (tp_id t) (tp_type t) (tp_num t).
(** getID, setID, TrackerPlanesLayerLayoutImpl.h 387-390 *)
Definition tp_getID (t : tplanes) : Z := 0.
Definition tp_setID (t : tplanes) (v : Z) : tplanes := mkTP (tp_layers t) v (tp_linfo t) (tp_id t) (tp_type t) (tp_num t).
Definition tp_getNLayers (t : tplanes) : Z := Z.of_nat (List.length (tp_layers t)).
(** getLayer, TrackerPlanesLayerLayoutImpl.h 404-411; [None] is the null pointer; the index is unsigned *)
Definition tp_getLayer (t : tplanes) (i : Z) : option tplayer := nth_error (tp_layers t) (Z.to_nat i).
(** getLayerByID, TrackerPlanesLayerLayoutImpl.h 414-421 *)
Definition tp_getLayerByID (t : tplanes) (id : Z) : option tplayer := find (fun l => (tl_ID l =? id)%Z) (tp_layers t).
