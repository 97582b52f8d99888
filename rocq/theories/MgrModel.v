(** Model of gear::GearMgrImpl (src/gearimpl/GearMgrImpl.cc, include/gear/gearimpl/GearMgrImpl.h):
    the manager that owns all detector descriptions, with the heap it works on.

    Simplifications: objects are addresses with the parts the manager looks at (their named
    parameters and, for materials, their name); every object handed over derives from
    GearParametersImpl, as all descriptions in GEAR do, so the dynamic_casts in 475-479, 496-500,
    517-521 succeed; the measurement surface store, created in the constructor, never handed out
    for deletion and deleted last, is not part of this model (see SurfModel). *)
From Coq Require Import ZArith List String Reals.
From Verif Require Import Base ParamsModel.
Import ListNotations.
Open Scope string_scope.

Notation addr := Z (only parsing).
Notation ptr := (option Z) (only parsing).

(** The heap: which addresses hold a live object, the named parameters of each object and the
    name of each material. *)
Record heap : Type := mkHeap {
  h_live : addr -> bool;
  h_params : addr -> params;
  h_matName : addr -> string
}.

(** [delete p]: null is a no-op, a live object dies, anything else is undefined behaviour. *)
Definition delete_obj (p : ptr) (h : heap) : option heap :=
  match p with
  | None => Some h
  | Some a =>
      if h_live h a
      then Some (mkHeap (fun b => if Z.eqb b a then false else h_live h b) (h_params h) (h_matName h))
      else None
  end.

Definition set_params (h : heap) (a : addr) (p : params) : heap :=
  mkHeap (h_live h) (fun b => if Z.eqb b a then p else h_params h b) (h_matName h).

(** The pointer members, GearMgrImpl.h 335-357. *)
Inductive field : Type :=
| F_tpc | F_ecalBarrel | F_ecalEndcap | F_ecalPlug | F_yokeBarrel | F_yokeEndcap | F_yokePlug | F_hcalBarrel | F_hcalEndcap | F_hcalRing | F_lcal | F_lhcal | F_beamcal | F_vxd | F_sit | F_set | F_ftd | F_trackerplanes | F_siplanes | F_pointProperties | F_distanceProperties | F_bField.

Definition field_eq_dec : forall a b : field, {a = b} + {a <> b}.
Proof. decide equality. Defined.

(** The members of GearMgrImpl, GearMgrImpl.h 334-365. *)
Record mgr : Type := mkMgr {
  m_ptr : field -> ptr;
  m_map : smap ptr;       (* _map, generic parameters *)
  m_mat : smap addr;      (* _matMap *)
  m_name : string         (* _detectorName *)
}.

(** Constructor, GearMgrImpl.cc 28-55: all pointers 0, maps empty, name "". *)
Definition mgr_init : mgr := mkMgr (fun _ => None) [] [] "".

Record mstate : Type := mkM { st_heap : heap; st_mgr : mgr }.

Definition write_field (f : field) (p : ptr) (s : mstate) : mstate :=
  let m := st_mgr s in
  mkM (st_heap s)
      (mkMgr (fun g => if field_eq_dec g f then p else m_ptr m g) (m_map m) (m_mat m) (m_name m)).

(** ** Getters: [if( _x == 0 ) throw UnknownParameterException(...) ; return *_x] *)
Definition get_or_throw (p : ptr) (msg : string) : result addr :=
  match p with None => Throw (EUnknownParameter msg) | Some a => Ok a end.

(** GearMgrImpl.cc 188-195 *)
Definition getTPCParameters (m : mgr) : result addr :=
  get_or_throw (m_ptr m F_tpc) "No TPCParameters set ".
(** GearMgrImpl.cc 206-213 *)
Definition getEcalBarrelParameters (m : mgr) : result addr :=
  get_or_throw (m_ptr m F_ecalBarrel) "No EcalBarrelParameters set ".
(** GearMgrImpl.cc 214-221 *)
Definition getEcalEndcapParameters (m : mgr) : result addr :=
  get_or_throw (m_ptr m F_ecalEndcap) "No EcalEndcapParameters set ".
(** GearMgrImpl.cc 223-230 *)
Definition getEcalPlugParameters (m : mgr) : result addr :=
  get_or_throw (m_ptr m F_ecalPlug) "No EcalPlugParameters set ".
(** GearMgrImpl.cc 232-239 *)
Definition getYokeBarrelParameters (m : mgr) : result addr :=
  get_or_throw (m_ptr m F_yokeBarrel) "No YokeBarrelParameters set ".
(** GearMgrImpl.cc 240-247 *)
Definition getYokeEndcapParameters (m : mgr) : result addr :=
  get_or_throw (m_ptr m F_yokeEndcap) "No YokeEndcapParameters set ".
(** GearMgrImpl.cc 249-256 *)
Definition getYokePlugParameters (m : mgr) : result addr :=
  get_or_throw (m_ptr m F_yokePlug) "No YokePlugParameters set ".
(** GearMgrImpl.cc 260-267 *)
Definition getHcalBarrelParameters (m : mgr) : result addr :=
  get_or_throw (m_ptr m F_hcalBarrel) "No HcalBarrelParameters set ".
(** GearMgrImpl.cc 268-275 *)
Definition getHcalEndcapParameters (m : mgr) : result addr :=
  get_or_throw (m_ptr m F_hcalEndcap) "No HcalEndcapParameters set ".
(** GearMgrImpl.cc 277-284 *)
Definition getHcalRingParameters (m : mgr) : result addr :=
  get_or_throw (m_ptr m F_hcalRing) "No HcalRingParameters set ".
(** GearMgrImpl.cc 287-294 *)
Definition getLcalParameters (m : mgr) : result addr :=
  get_or_throw (m_ptr m F_lcal) "No LcalParameters set ".
(** GearMgrImpl.cc 296-303 *)
Definition getLHcalParameters (m : mgr) : result addr :=
  get_or_throw (m_ptr m F_lhcal) "No LHcalParameters set ".
(** GearMgrImpl.cc 305-312 *)
Definition getBeamCalParameters (m : mgr) : result addr :=
  get_or_throw (m_ptr m F_beamcal) "No BeamCalParameters set ".
(** GearMgrImpl.cc 314-321 *)
Definition getVXDParameters (m : mgr) : result addr :=
  get_or_throw (m_ptr m F_vxd) "No VXDParameters set ".
(** GearMgrImpl.cc 332-339 *)
Definition getSITParameters (m : mgr) : result addr :=
  get_or_throw (m_ptr m F_sit) "No SITParameters set ".
(** GearMgrImpl.cc 340-347 *)
Definition getSETParameters (m : mgr) : result addr :=
  get_or_throw (m_ptr m F_set) "No SETParameters set ".
(** GearMgrImpl.cc 323-330 *)
Definition getFTDParameters (m : mgr) : result addr :=
  get_or_throw (m_ptr m F_ftd) "No FTDParameters set ".
(** GearMgrImpl.cc 349-356 *)
Definition getTrackerPlanesParameters (m : mgr) : result addr :=
  get_or_throw (m_ptr m F_trackerplanes) "No TrackerPlanesParameters set ".
(** GearMgrImpl.cc 358-365 *)
Definition getSiPlanesParameters (m : mgr) : result addr :=
  get_or_throw (m_ptr m F_siplanes) "No SiPlanesParameters set ".
(** GearMgrImpl.cc 367-373 *)
Definition getPointProperties (m : mgr) : result addr :=
  get_or_throw (m_ptr m F_pointProperties) "No PointProperties set or implemented ".
(** GearMgrImpl.cc 377-384 *)
Definition getDistanceProperties (m : mgr) : result addr :=
  get_or_throw (m_ptr m F_distanceProperties) "No DistanceProperties set or implemented ".
(** GearMgrImpl.cc 197-204 *)
Definition getBField (m : mgr) : result addr :=
  get_or_throw (m_ptr m F_bField) "No BField set ".

(** GearMgrImpl.cc 169-176 *)
Definition getDetectorName (m : mgr) : result string :=
  if Nat.eqb (String.length (m_name m)) 0
  then Throw (EUnknownParameter "No DetectorName set ") else Ok (m_name m).

(** GearMgrImpl.cc 179-186 *)
Definition getGearParameters (m : mgr) (key : string) : result addr :=
  match sm_find key (m_map m) with
  | None => Throw (EUnknownParameter ("No parameters set for : " ++ key))
  | Some None => Throw (EUnknownParameter ("No parameters set for : " ++ key))
  | Some (Some a) => Ok a
  end.

(** GearMgrImpl.cc 567-576 *)
Definition getGearParameterKeys (m : mgr) : list string := sm_keys (m_map m).
(** GearMgrImpl.cc 578-588 *)
Definition getMaterialNames (m : mgr) : list string := sm_keys (m_mat m).
(** GearMgrImpl.cc 591-604 *)
Definition getSimpleMaterial (m : mgr) (name : string) : result addr :=
  match sm_find name (m_mat m) with
  | None => Throw (EUnknownParameter
      (" GearMgrImpl::getSimpleMaterial - unknown material with name " ++ name ++ "  ! "))
  | Some a => Ok a
  end.

(** ** Setters *)

(** GearMgrImpl.h 229 *)
Definition setDetectorName (n : string) (s : mstate) : sres mstate unit :=
  let m := st_mgr s in
  SOk (mkM (st_heap s) (mkMgr (m_ptr m) (m_map m) (m_mat m) n)) tt.

(** GearMgrImpl.cc 386-405: null ignored; an existing entry is deleted and replaced. *)
Definition setGearParameters (key : string) (p : ptr) (s : mstate) : sres mstate unit :=
  match p with
  | None => SOk s tt
  | Some _ =>
      let m := st_mgr s in
      let m' := mkMgr (m_ptr m) (sm_set key p (m_map m)) (m_mat m) (m_name m) in
      match sm_find key (m_map m) with
      | Some old =>
          match delete_obj old (st_heap s) with
          | None => SUB
          | Some h => SOk (mkM h m') tt
          end
      | None => SOk (mkM (st_heap s) m') tt
      end
  end.

(** GearMgrImpl.cc 407-413 *)
Definition setTPCParameters (p : ptr) (s : mstate) : sres mstate unit :=
  match delete_obj (m_ptr (st_mgr s) F_tpc) (st_heap s) with
  | None => SUB
  | Some h => SOk (write_field F_tpc p (mkM h (st_mgr s))) tt
  end.

(** The body shared by the three forward calorimeter setters, GearMgrImpl.cc 466-481 (487-502,
    508-523): dereferences the pointer, adds beam_crossing_angle 0.0 if it is missing. *)
Definition add_crossing_angle (p : ptr) (s : mstate) : option mstate :=
  match p with
  | None => None
  | Some a =>
      if h_live (st_heap s) a then
        match getDoubleVal (h_params (st_heap s) a) "beam_crossing_angle" with
        | Throw _ =>
            Some (mkM (set_params (st_heap s) a
                        (setDoubleVal (h_params (st_heap s) a) "beam_crossing_angle" 0%R))
                      (st_mgr s))
        | _ => Some s
        end
      else None
  end.

(** GearMgrImpl.cc 420-423 *)
Definition setEcalBarrelParameters (p : ptr) (s : mstate) : sres mstate unit :=
  SOk (write_field F_ecalBarrel p s) tt.
(** GearMgrImpl.cc 424-427 *)
Definition setEcalEndcapParameters (p : ptr) (s : mstate) : sres mstate unit :=
  SOk (write_field F_ecalEndcap p s) tt.
(** GearMgrImpl.cc 429-432 *)
Definition setEcalPlugParameters (p : ptr) (s : mstate) : sres mstate unit :=
  SOk (write_field F_ecalPlug p s) tt.
(** GearMgrImpl.cc 434-437 *)
Definition setYokeBarrelParameters (p : ptr) (s : mstate) : sres mstate unit :=
  SOk (write_field F_yokeBarrel p s) tt.
(** GearMgrImpl.cc 438-441 *)
Definition setYokeEndcapParameters (p : ptr) (s : mstate) : sres mstate unit :=
  SOk (write_field F_yokeEndcap p s) tt.
(** GearMgrImpl.cc 443-446 *)
Definition setYokePlugParameters (p : ptr) (s : mstate) : sres mstate unit :=
  SOk (write_field F_yokePlug p s) tt.
(** GearMgrImpl.cc 449-452 *)
Definition setHcalBarrelParameters (p : ptr) (s : mstate) : sres mstate unit :=
  SOk (write_field F_hcalBarrel p s) tt.
(** GearMgrImpl.cc 454-457 *)
Definition setHcalEndcapParameters (p : ptr) (s : mstate) : sres mstate unit :=
  SOk (write_field F_hcalEndcap p s) tt.
(** GearMgrImpl.cc 459-462 *)
Definition setHcalRingParameters (p : ptr) (s : mstate) : sres mstate unit :=
  SOk (write_field F_hcalRing p s) tt.
(** GearMgrImpl.cc 464-483 *)
Definition setLcalParameters (p : ptr) (s : mstate) : sres mstate unit :=
  match add_crossing_angle p s with None => SUB | Some s1 => SOk (write_field F_lcal p s1) tt end.
(** GearMgrImpl.cc 485-504 *)
Definition setLHcalParameters (p : ptr) (s : mstate) : sres mstate unit :=
  match add_crossing_angle p s with None => SUB | Some s1 => SOk (write_field F_lhcal p s1) tt end.
(** GearMgrImpl.cc 506-525 *)
Definition setBeamCalParameters (p : ptr) (s : mstate) : sres mstate unit :=
  match add_crossing_angle p s with None => SUB | Some s1 => SOk (write_field F_beamcal p s1) tt end.
(** GearMgrImpl.cc 527-530 *)
Definition setVXDParameters (p : ptr) (s : mstate) : sres mstate unit :=
  SOk (write_field F_vxd p s) tt.
(** GearMgrImpl.cc 537-540 *)
Definition setSITParameters (p : ptr) (s : mstate) : sres mstate unit :=
  SOk (write_field F_sit p s) tt.
(** GearMgrImpl.cc 542-545 *)
Definition setSETParameters (p : ptr) (s : mstate) : sres mstate unit :=
  SOk (write_field F_set p s) tt.
(** GearMgrImpl.cc 532-535 *)
Definition setFTDParameters (p : ptr) (s : mstate) : sres mstate unit :=
  SOk (write_field F_ftd p s) tt.
(** GearMgrImpl.cc 547-550 *)
Definition setTrackerPlanesParameters (p : ptr) (s : mstate) : sres mstate unit :=
  SOk (write_field F_trackerplanes p s) tt.
(** GearMgrImpl.cc 552-555 *)
Definition setSiPlanesParameters (p : ptr) (s : mstate) : sres mstate unit :=
  SOk (write_field F_siplanes p s) tt.
(** GearMgrImpl.cc 557-560 *)
Definition setPointProperties (p : ptr) (s : mstate) : sres mstate unit :=
  SOk (write_field F_pointProperties p s) tt.
(** GearMgrImpl.cc 562-565 *)
Definition setDistanceProperties (p : ptr) (s : mstate) : sres mstate unit :=
  SOk (write_field F_distanceProperties p s) tt.
(** GearMgrImpl.cc 415-418 *)
Definition setBField (p : ptr) (s : mstate) : sres mstate unit :=
  SOk (write_field F_bField p s) tt.

(** GearMgrImpl.cc 607-621: dereferences the material; a known name throws. *)
Definition registerSimpleMaterial (p : ptr) (s : mstate) : sres mstate unit :=
  match p with
  | None => SUB
  | Some a =>
      if h_live (st_heap s) a then
        let name := h_matName (st_heap s) a in
        let m := st_mgr s in
        match sm_find name (m_mat m) with
        | Some _ => SThrow s (EGear
            (" GearMgrImpl::registerSimpleMaterial - material with name " ++ name
              ++ " already registered ! "))
        | None => SOk (mkM (st_heap s) (mkMgr (m_ptr m) (m_map m) (sm_set name a (m_mat m)) (m_name m))) tt
        end
      else SUB
  end.

(** ** Destruction, GearMgrImpl.cc 116-158 *)
Fixpoint delete_all (l : list ptr) (h : heap) : option heap :=
  match l with
  | [] => Some h
  | p :: t => match delete_obj p h with None => None | Some h' => delete_all t h' end
  end.

(** cleanup, GearMgrImpl.cc 121-158: the pointer members in this order, then the generic
    parameters, then the materials. *)
Definition cleanup_order : list field :=
  [F_tpc; F_ecalBarrel; F_ecalEndcap; F_ecalPlug; F_yokeBarrel; F_yokeEndcap; F_yokePlug; F_hcalBarrel; F_hcalEndcap; F_hcalRing; F_lcal; F_lhcal; F_beamcal; F_vxd; F_sit; F_set; F_ftd; F_trackerplanes; F_siplanes; F_pointProperties; F_distanceProperties; F_bField].
Definition destroy (s : mstate) : option heap :=
  delete_all (map (m_ptr (st_mgr s)) cleanup_order
              ++ map snd (m_map (st_mgr s))
              ++ map (fun e => Some (snd e)) (m_mat (st_mgr s)))%list (st_heap s).
