(** Model of TGeoGearPointProperties (src/geartgeo/TGeoGearPointProperties.cc), TGeoMaterialProperties and
    TGeoGeometryInitializer (src/geartgeo), the <GDMLFile> part of GearXML::createGearMgr
    (src/gearxml/GearXML.cc 536-577), CGAGearDistanceProperties and the remaining functions of
    CGAGearPointProperties (src/gearcga).  ROOT's manager, its GDML parser and Mokka are not modelled: what
    they answer is a parameter ([world], [files], [mokka]).  Simplifications: doubles are real numbers;
    FindNode finds the same for the same point; the texts of exceptions are left out, their type is kept. *)
From Coq Require Import ZArith List Bool Reals String.
From Verif Require Import Base RBase VecModel CgaModel.
Import ListNotations.
Open Scope R_scope.

(** What is read from a TGeoMaterial. *)
Record pmat := mkPMat { pm_name : string; pm_density : R; pm_temperature : R; pm_pressure : R; pm_rad : R; pm_int : R }.
(** What is read from a TGeoNode: its name and that of its volume, each with the address of the text (lines
    184 and 211 compare addresses), and the material of its medium. *)
Record pnode := mkPNode { pn_addr : Z; pn_name : string; pv_addr : Z; pv_name : string; pn_mat : pmat }.
(** The current branch of the manager: the current node first, then the one that contains it, and so on. *)
Definition branch := list pnode.
(** The manager: its top node, the branch FindNode moves to (None: outside), and the position in the frame of
    a branch (MasterToLocal). *)
Record world := mkWorld { w_top : pnode; w_find : vec -> option branch; w_local : branch -> vec -> vec }.
(** What changes: the current branch, and the static string of getMaterialName (line 37). *)
Record pstate := mkPS { ps_at : branch; ps_text : string }.
(** after CloseGeometry, and before the first call of getMaterialName *)
Definition new_pstate (w : world) : pstate := mkPS [w_top w] "unknown".

(** A call gives an answer, throws, or does not return. *)
Inductive outcome (A : Type) := Gives (a : A) | Raises (e : exn) | Forever.
Arguments Gives {A}. Arguments Raises {A}. Arguments Forever {A}.

(** FindNode: outside, the manager is left at its top node *)
Definition FindNode (w : world) (p : vec) (s : pstate) : option pnode * pstate :=
  match w_find w p with
  | None => (None, mkPS [w_top w] (ps_text s))
  | Some b => (hd_error b, mkPS b (ps_text s))
  end.
(** CdUp: at the top node it does nothing *)
Definition CdUp (b : branch) : branch := match b with _ :: (_ :: _) as r => tl b | _ => b end.
(** The loops of lines 178-187 and 205-214, at most [fuel] turns; None: not finished. *)
Fixpoint climb (fuel : nat) (addr : pnode -> Z) (name : pnode -> string) (top : Z) (b : branch) (names : list string) : option (list string * branch) :=
  match fuel with
  | O => None
  | S k => match b with
           | [] => Some (names, b)                                        (* 178, 205 *)
           | n :: _ =>
               let names' := (names ++ [name n])%list in                  (* 181, 208 *)
               let b' := CdUp b in                                        (* 182, 209 *)
               if Z.eqb (addr n) top then Some (names', b')               (* 184, 211 *)
               else climb k addr name top b' names'
           end
  end.

Inductive pquery := QMaterialName | QDensity | QTemperature | QPressure | QRadlen | QIntlen | QLocalPosition
  | QLogical | QPhysical | QCellID | QB | QE | QRegion | QIsTracker | QIsCalorimeter.
Inductive panswer := PText (s : string) | PNumber (x : R) | PVector (v : vec) | PNames (l : list string) | PLengths (l : list R) | PBool (b : bool) | PCell (z : Z).
Definition outside : exn := EGear "OutsideGeometryException".
Definition not_implemented : exn := ENotImplemented "not implemented yet in TGeoGearPointProperties".

(** getDensity and the four like it, lines 48-133 *)
Definition number_at (w : world) (f : pmat -> R) (p : vec) (s : pstate) : outcome panswer * pstate :=
  match FindNode w p s with
  | (Some n, s') => (Gives (PNumber (f (pn_mat n))), s')
  | (None, s') => (Raises outside, s')
  end.
(** getListOfLogicalVolumes 165-189, getListOfPhysicalVolumes 192-216.  The branch has as many turns as
    levels: a loop that is not finished then stays at the top node for ever (see [climb_forever]). *)
Definition names_at (w : world) (addr : pnode -> Z) (name : pnode -> string) (p : vec) (s : pstate) : outcome panswer * pstate :=
  match FindNode w p s with
  | (Some _, s') =>
      match climb (List.length (ps_at s')) addr name (addr (w_top w)) (ps_at s') [] with
      | Some (l, b) => (Gives (PNames l), mkPS b (ps_text s'))
      | None => (Forever, s')
      end
  | (None, s') => (Raises outside, s')
  end.
(** One call of a function of TGeoGearPointProperties. *)
Definition call (w : world) (q : pquery) (p : vec) (s : pstate) : outcome panswer * pstate :=
  match q with
  | QMaterialName =>                                                      (* 30-45 *)
      match FindNode w p s with
      | (Some n, s') => (Gives (PText (pm_name (pn_mat n))), mkPS (ps_at s') (pm_name (pn_mat n)))
      | (None, s') => (Raises outside, s')
      end
  | QDensity => number_at w pm_density p s                                (* 48-63 *)
  | QTemperature => number_at w pm_temperature p s                        (* 64-78 *)
  | QPressure => number_at w pm_pressure p s                              (* 82-97 *)
  | QRadlen => number_at w pm_rad p s                                     (* 101-115 *)
  | QIntlen => number_at w pm_int p s                                     (* 119-133 *)
  | QLocalPosition => (Gives (PVector (w_local w (ps_at s) p)), s)        (* 137-146 *)
  | QLogical => names_at w pv_addr pv_name p s                            (* 165-189 *)
  | QPhysical => names_at w pn_addr pn_name p s                           (* 192-216 *)
  | QCellID | QB | QE | QRegion | QIsTracker | QIsCalorimeter =>          (* 21, 150, 157, 220, 226, 232 *)
      (Raises not_implemented, s)
  end.
(** What happens to a manager: a call, or somebody else (a distance query, the user) moves it to a branch. *)
Inductive event := Called (q : pquery) (p : vec) | Moved (b : branch).
Definition step (w : world) (s : pstate) (e : event) : pstate :=
  match e with Called q p => snd (call w q p s) | Moved b => mkPS b (ps_text s) end.
Definition history (w : world) (h : list event) : pstate := fold_left (step w) h (new_pstate w).

(** ** TGeoMaterialProperties *)
(** What TGDMLParse makes of a file (None: GDMLReadFile returns null). *)
Definition files := string -> option world.
(** _cfg and _tgeoInit; the initializer is known by the world its manager holds. *)
Record mprops := mkMP { mp_cfg : smap string; mp_init : option world }.
Definition new_mprops : mprops := mkMP [] None.                           (* 13 *)
(** config()[k] = v *)
Definition mp_config (k v : string) (m : mprops) : mprops := mkMP (sm_set k v (mp_cfg m)) (mp_init m).
(** initialize, 21-27, with the constructor of TGeoGeometryInitializer (26-37): operator[] creates an empty
    entry when there is none; the old initializer is not deleted, which nothing can observe. *)
Definition mp_initialize (fs : files) (m : mprops) : result unit * mprops :=
  let cfg := match sm_find "GDMLFileName" (mp_cfg m) with Some _ => mp_cfg m | None => sm_set "GDMLFileName" EmptyString (mp_cfg m) end in
  let file := match sm_find "GDMLFileName" (mp_cfg m) with Some f => f | None => EmptyString end in
  match fs file with
  | Some w => (Ok tt, mkMP cfg (Some w))
  | None => (Throw (EParse "TGeoGeometryInitializer: Could not find GDML file"), mkMP cfg (mp_init m))
  end.
(** getGearPointProperties 29-32, getGearDistanceProperties 34-37: null, or an object for that manager *)
Definition mp_point (m : mprops) : option world := mp_init m.
Definition mp_distance (m : mprops) : option world := mp_init m.
Inductive mevent := MConfig (k v : string) | MInitialize.
Definition mstep (fs : files) (m : mprops) (e : mevent) : mprops :=
  match e with MConfig k v => mp_config k v m | MInitialize => snd (mp_initialize fs m) end.
Definition mhistory (fs : files) (l : list mevent) : mprops := fold_left (mstep fs) l new_mprops.

(** <GDMLFile name="f"> in createGearMgr, 541-576: [lib]: the library could be loaded and has registered its
    factory.  The result is what setPointProperties and setDistanceProperties are called with (None: neither
    is called). *)
Definition gdml_file (lib : bool) (fs : files) (f : string) : result (option (option world * option world)) :=
  if lib
  then let m := mp_config "GDMLFileName" f new_mprops in                  (* 558-559 *)
       match mp_initialize fs m with                                      (* 560 *)
       | (Ok _, m') => Ok (Some (mp_point m', mp_distance m'))            (* 562-566 *)
       | (Throw e, _) => Throw e
       | (UB, _) => UB
       end
  else Ok None.                                                           (* 568-575 *)

(** ** CGA *)
(** What Mokka answers: the steps of a beam (start, end, direction in cm), whether CGAGetStepsForJava adds to
    the vectors it is given or replaces their contents (its source is not part of GEAR), the line integrals of
    the fields, and the answers for a point.  The vectors of CGAGetLocalPosition, CGAGetB and CGAGetE can have
    any length. *)
Record cstep := mkCStep { cs_mat : string; cs_len : R; cs_x0 : R; cs_il : R }.
Record mokka := mkMokka {
  mk_beam : vec -> vec -> vec -> list cstep; mk_appends : bool; mk_bdl : vec -> vec -> R; mk_edl : vec -> vec -> R;
  mk_name : vec -> string; mk_number : pquery -> vec -> R; mk_vector : pquery -> vec -> list R;
  mk_cell : vec -> Z * Z * Z; mk_names : pquery -> vec -> list string; mk_region : vec -> string; mk_bool : pquery -> vec -> bool }.
Definition fill {A} (mk : mokka) (old new : list A) : list A := if mk_appends mk then (old ++ new)%list else new.
(** the static objects of getMaterialNames (39), getMaterialThicknesses (61) and getMaterialName (68) *)
Record cstate := mkCS { c_names : list string; c_lens : list R; c_text : string }.
Definition new_cstate : cstate := mkCS [] [] "unknown".
(** beamOn, CGAGearDistanceProperties.cc 20-32: the points in cm, and their difference *)
Definition cga_beam (mk : mokka) (p0 p1 : vec) : list cstep :=
  let i := mkVec (vx p0 * (1 / 10)) (vy p0 * (1 / 10)) (vz p0 * (1 / 10)) in
  let f := mkVec (vx p1 * (1 / 10)) (vy p1 * (1 / 10)) (vz p1 * (1 / 10)) in
  mk_beam mk i f (vsub f i).
Inductive cquery := CNames | CThicknesses | CRadlen | CIntlen | CBdL | CEdL.
(** the sums of 92-96 and 117-121 *)
Definition csum (l : list R) : R := fold_left Rplus l 0.
(** CGAGearDistanceProperties.cc: getMaterialNames 36-52, getMaterialThicknesses 57-73, getNRadlen 77-97,
    getNIntlen 102-122, getBdL 127-136, getEdL 140-149 *)
Definition cga_distance (mk : mokka) (q : cquery) (p0 p1 : vec) (s : cstate) : panswer * cstate :=
  match q with
  | CNames => let l := fill mk (c_names s) (map cs_mat (cga_beam mk p0 p1)) in (PNames l, mkCS l (c_lens s) (c_text s))
  | CThicknesses => let l := fill mk (c_lens s) (map cs_len (cga_beam mk p0 p1)) in (PLengths l, mkCS (c_names s) l (c_text s))
  | CRadlen => (PNumber (csum (fill mk [] (map cs_x0 (cga_beam mk p0 p1)))), s)
  | CIntlen => (PNumber (csum (fill mk [] (map cs_il (cga_beam mk p0 p1)))), s)
  | CBdL => (PNumber (mk_bdl mk p0 p1), s)
  | CEdL => (PNumber (mk_edl mk p0 p1), s)
  end.
(** result[0], result[1], result[2] (CGAGearPointProperties.cc 155, 169, 184) *)
Definition three (l : list R) : result panswer :=
  match l with x :: y :: z :: _ => Ok (PVector (mkVec x y z)) | _ => UB end.
(** CGAGearPointProperties.cc 24-244; getCellID as in CgaModel.v, [mk_cell] gives id0, id1 and flag *)
Definition cga_point (mk : mokka) (q : pquery) (p : vec) (s : cstate) : result panswer * cstate :=
  match q with
  | QMaterialName => (Ok (PText (mk_name mk p)), mkCS (c_names s) (c_lens s) (mk_name mk p))   (* 66-79 *)
  | QDensity | QTemperature | QPressure | QRadlen | QIntlen => (Ok (PNumber (mk_number mk q p)), s)   (* 82-142 *)
  | QLocalPosition | QB | QE => (three (mk_vector mk q p), s)             (* 146-185 *)
  | QLogical | QPhysical => (Ok (PNames (mk_names mk q p)), s)            (* 189-208 *)
  | QRegion => (Ok (PText (mk_region mk p)), s)                           (* 212-220 *)
  | QIsTracker | QIsCalorimeter => (Ok (PBool (mk_bool mk q p)), s)       (* 224-244 *)
  | QCellID => (let '(id0, id1, flag) := mk_cell mk p in rmap PCell (getCellID id0 id1 flag), s)      (* 24-61 *)
  end.
Inductive cevent := CDistance (q : cquery) (p0 p1 : vec) | CPoint (q : pquery) (p : vec).
Definition cstep_state (mk : mokka) (s : cstate) (e : cevent) : cstate :=
  match e with CDistance q p0 p1 => snd (cga_distance mk q p0 p1 s) | CPoint q p => snd (cga_point mk q p s) end.
Definition chistory (mk : mokka) (h : list cevent) : cstate := fold_left (cstep_state mk) h new_cstate.
