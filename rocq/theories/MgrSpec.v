(** Vocabulary for histories of calls on a manager. *)
From Coq Require Import ZArith List String.
From Verif Require Import Base ParamsModel MgrModel.
Import ListNotations.

(** The detector descriptions and global objects with a setter and a getter of their own. *)
Inductive detector : Type :=
| TPC | EcalBarrel | EcalEndcap | EcalPlug | YokeBarrel | YokeEndcap | YokePlug | HcalBarrel | HcalEndcap | HcalRing | Lcal | LHcal | BeamCal | VXD | SIT | SET | FTD | TrackerPlanes | SiPlanes | PointProperties | DistanceProperties | BField.

Definition set_det (d : detector) : ptr -> mstate -> sres mstate unit :=
  match d with
  | TPC => setTPCParameters
  | EcalBarrel => setEcalBarrelParameters
  | EcalEndcap => setEcalEndcapParameters
  | EcalPlug => setEcalPlugParameters
  | YokeBarrel => setYokeBarrelParameters
  | YokeEndcap => setYokeEndcapParameters
  | YokePlug => setYokePlugParameters
  | HcalBarrel => setHcalBarrelParameters
  | HcalEndcap => setHcalEndcapParameters
  | HcalRing => setHcalRingParameters
  | Lcal => setLcalParameters
  | LHcal => setLHcalParameters
  | BeamCal => setBeamCalParameters
  | VXD => setVXDParameters
  | SIT => setSITParameters
  | SET => setSETParameters
  | FTD => setFTDParameters
  | TrackerPlanes => setTrackerPlanesParameters
  | SiPlanes => setSiPlanesParameters
  | PointProperties => setPointProperties
  | DistanceProperties => setDistanceProperties
  | BField => setBField
  end.
Definition get_det (d : detector) : mgr -> result addr :=
  match d with
  | TPC => getTPCParameters
  | EcalBarrel => getEcalBarrelParameters
  | EcalEndcap => getEcalEndcapParameters
  | EcalPlug => getEcalPlugParameters
  | YokeBarrel => getYokeBarrelParameters
  | YokeEndcap => getYokeEndcapParameters
  | YokePlug => getYokePlugParameters
  | HcalBarrel => getHcalBarrelParameters
  | HcalEndcap => getHcalEndcapParameters
  | HcalRing => getHcalRingParameters
  | Lcal => getLcalParameters
  | LHcal => getLHcalParameters
  | BeamCal => getBeamCalParameters
  | VXD => getVXDParameters
  | SIT => getSITParameters
  | SET => getSETParameters
  | FTD => getFTDParameters
  | TrackerPlanes => getTrackerPlanesParameters
  | SiPlanes => getSiPlanesParameters
  | PointProperties => getPointProperties
  | DistanceProperties => getDistanceProperties
  | BField => getBField
  end.

(** One call on the manager. *)
Inductive call : Type :=
| CSet (d : detector) (p : ptr)          (* set<Detector>Parameters(p) *)
| CGeneric (key : string) (p : ptr)      (* setGearParameters(key, p) *)
| CName (n : string)                     (* setDetectorName(n) *)
| CMaterial (p : ptr).                   (* registerSimpleMaterial(p) *)

Definition do_call (c : call) : mstate -> sres mstate unit :=
  match c with
  | CSet d p => set_det d p
  | CGeneric k p => setGearParameters k p
  | CName n => setDetectorName n
  | CMaterial p => registerSimpleMaterial p
  end.

(** The calls of [h] one after the other; the caller catches exceptions. [None]: undefined
    behaviour happened. *)
Fixpoint run (h : list call) (s : mstate) : option mstate :=
  match h with
  | [] => Some s
  | c :: t =>
      match do_call c s with
      | SOk s' _ => run t s'
      | SThrow s' _ => run t s'
      | SUB => None
      end
  end.

(** A fresh manager on heap [hp]. *)
Definition fresh (hp : heap) : mstate := mkM hp mgr_init.

(** The object a call hands over. *)
Definition handed (c : call) : list addr :=
  match c with
  | CSet _ (Some a) => [a] | CGeneric _ (Some a) => [a] | CMaterial (Some a) => [a]
  | _ => []
  end.

Definition is_forward (d : detector) : bool :=
  match d with Lcal | LHcal | BeamCal => true | _ => false end.
(** Calls that dereference their argument need one. *)
Definition has_object (c : call) : Prop :=
  match c with
  | CSet d None => is_forward d = false
  | CMaterial None => False
  | _ => True
  end.

(** The last call of the setter of [d] in [h] was with [p]. *)
Definition last_set (d : detector) (h : list call) (p : ptr) : Prop :=
  exists h1 h2, h = (h1 ++ CSet d p :: h2)%list /\ forall q, ~ In (CSet d q) h2.

(** [a] was the first material registered under the name [n]; [nm] gives the materials' names. *)
Definition first_mat (nm : addr -> string) (h : list call) (n : string) (a : addr) : Prop :=
  exists h1 h2, h = (h1 ++ CMaterial (Some a) :: h2)%list /\ nm a = n /\
    forall b, In (CMaterial (Some b)) h1 -> nm b <> n.

(** What a manager has deleted after the calls [h] and its own destruction: what is still
    registered for a detector, everything ever given to the TPC or to a generic slot, and the
    accepted materials.  Everything else handed over is never deleted. *)
Definition released (nm : addr -> string) (h : list call) (a : addr) : Prop :=
  (exists d, last_set d h (Some a)) \/
  In (CSet TPC (Some a)) h \/
  (exists k, In (CGeneric k (Some a)) h) \/
  (exists n, first_mat nm h n a).
