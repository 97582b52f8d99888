(** Model of src/gearxml/GearXML.cc: whole geometries in files, and of the part of the handlers that
    hands what was read to the manager.

    Simplifications: what a manager holds is a record of values (MgrModel has the pointers); the
    magnetic field is a ConstantBField (others cannot be written, ConstantBFieldXML.cc 17-23); the
    handlers are those of the constructor of XMLHandlerMgr (HandlerModel); the library for GDML files
    is not installed, so that <GDMLFile> only leads to a warning (591-599); a file that cannot be
    written is not noticed by the code (466) and not looked at here. *)
From Coq Require Import ZArith List String Ascii Bool Reals.
From Verif Require Import Base RBase XmlModel NumModel HxModel ParamsModel ParXmlModel CaloModel CaloXmlModel TrkXmlModel TpcXmlModel.
Import ListNotations.
Local Open Scope string_scope.
Local Notation "'do' x <- a ; b" := (rbind a (fun x => b)) (at level 100, x name, a at level 99, b at level 200).

(** the calorimeters and the ladder detectors a manager has a place for, GearMgrImpl.h 335-357 *)
Inductive calo_slot : Type :=
| EcalBarrel | EcalEndcap | EcalPlug | YokeBarrel | YokeEndcap | YokePlug | HcalBarrel | HcalEndcap | HcalRing | Lcal | LHcal | BeamCal.
Inductive zp_slot : Type := VXD | SIT | SET.
Definition calo_slot_eqb (a b : calo_slot) : bool :=
  match a, b with
  | EcalBarrel, EcalBarrel | EcalEndcap, EcalEndcap | EcalPlug, EcalPlug | YokeBarrel, YokeBarrel | YokeEndcap, YokeEndcap
  | YokePlug, YokePlug | HcalBarrel, HcalBarrel | HcalEndcap, HcalEndcap | HcalRing, HcalRing | Lcal, Lcal | LHcal, LHcal
  | BeamCal, BeamCal => true
  | _, _ => false
  end.
Definition zp_slot_eqb (a b : zp_slot) : bool :=
  match a, b with VXD, VXD | SIT, SIT | SET, SET => true | _, _ => false end.

(** what a manager holds *)
Record content : Type := mkG {
  g_name : string;                         (* "" if it was not set *)
  g_field : option field_obj;
  g_tpc : option tpc_obj;
  g_calo : calo_slot -> option calo_obj;
  g_zp : zp_slot -> option zp_obj;
  g_ftd : option ftd_obj;
  g_tp : option tp_obj;
  g_si : option si_obj;
  g_generic : smap params;
  g_mat : smap smat
}.
(** a new manager, GearMgrImpl.cc 28-55 *)
Definition new_content : content := mkG "" None None (fun _ => None) (fun _ => None) None None None [] [].

(** ** Writing, GearXML.cc 50-468 *)
(** the name in the file, lines 118, 133, ... *)
Definition calo_name (s : calo_slot) : string :=
  match s with
  | EcalBarrel => "EcalBarrel" | EcalEndcap => "EcalEndcap" | EcalPlug => "EcalPlug"
  | YokeBarrel => "YokeBarrel" | YokeEndcap => "YokeEndcap" | YokePlug => "YokePlug"
  | HcalBarrel => "HcalBarrel" | HcalEndcap => "HcalEndcap" | HcalRing => "HcalRing"
  | Lcal => "Lcal" | LHcal => "LHcal" | BeamCal => "BeamCal"
  end.
Definition zp_name (s : zp_slot) : string := match s with VXD => "VXD" | SIT => "SIT" | SET => "SET" end.
(** the order of lines 111-303 *)
Definition calo_order : list calo_slot :=
  [EcalBarrel; EcalEndcap; EcalPlug; YokeBarrel; YokeEndcap; YokePlug; HcalBarrel; HcalEndcap; HcalRing; Lcal; LHcal; BeamCal].

(** [try { ... } catch( UnknownParameterException& ) {}] around a handler, e.g. lines 82-93 *)
Definition tried (r : result xnode) : result (list xnode) :=
  match r with
  | Ok n => Ok [n]
  | Throw (EUnknownParameter _) => Ok []
  | Throw e => Throw e
  | UB => UB
  end.
(** lines 105-106 and their like *)
Definition labelled (name type : string) (n : xnode) : xnode :=
  match n with
  | XElem e a ch => XElem e (SetAttribute "geartype" type (SetAttribute "name" name a)) ch
  | _ => n
  end.
(** one detector, e.g. lines 99-113; a getter throws an UnknownParameterException if there is none *)
Definition detector_elem {O} (write : O -> result xnode) (name type : string) (o : option O) : result (list xnode) :=
  match o with
  | None => Ok []
  | Some x => tried (rmap (labelled name type) (write x))
  end.
Definition calo_elem (g : content) (s : calo_slot) : result (list xnode) :=
  detector_elem calo_toXML (calo_name s) "CalorimeterParameters" (g_calo g s).
Definition zp_elem (g : content) (s : zp_slot) : result (list xnode) :=
  detector_elem zp_toXML (zp_name s) "ZPlanarParameters" (g_zp g s).
(** lines 417-431: no exception is caught *)
Definition generic_elem (kp : string * params) : result xnode :=
  rmap (labelled (fst kp) "GearParameters") (parameters_toXML (snd kp)).

(** lines 66-75 *)
Definition written_name (name : string) : string := if String.eqb name "" then "Unknown" else name.
(** line 79 *)
Definition root_comment : string := "Gear XML file automatically created with GearXML::createXMLFile ....".

(** the document *)
Definition geometry_doc (g : content) : result (list xnode) :=
  do field <- (match g_field g with None => Ok [] | Some f => tried (field_toXML f) end);
  do tpc <- detector_elem tpc_toXML "TPC" "TPCParameters" (g_tpc g);
  do calos <- rall (calo_elem g) calo_order;
  do vxd <- zp_elem g VXD;
  do ftd <- detector_elem ftd_toXML "FTD" "FTDParameters" (g_ftd g);
  do sit <- zp_elem g SIT;
  do set <- zp_elem g SET;
  do tp <- detector_elem tp_toXML "TrackerPlanes" "TrackerPlanesParameters" (g_tp g);
  do si <- detector_elem si_toXML "SiPlanes" "SiPlanesParameters" (g_si g);
  do gen <- rall generic_elem (g_generic g);
  do mats <- rall smat_toXML (map snd (g_mat g));                                     (* 437-454 *)
  Ok [XElem "gear" []
       ([XElem "global" (attrs_of [("detectorName", written_name (g_name g))]) []; XComment root_comment] ++ field ++
        [XElem "detectors" [] (tpc ++ List.concat calos ++ vxd ++ ftd ++ sit ++ set ++ tp ++ si ++ gen);
         XElem "materials" [] mats])].
(** createXMLFile: the bytes of the file; the manager is not null *)
Definition createXMLFile (g : content) : result string := rmap print_doc (geometry_doc g).

(** ** Handing over to the manager *)
(** std::string::find( t ) != npos *)
Fixpoint has (t s : string) : bool :=
  String.prefix t s || match s with EmptyString => false | String _ r => has t r end.

(** CalorimeterParametersXML.cc 283-329: the place for a calorimeter, if there is one *)
Definition calo_place (name : string) (barrel : bool) : option calo_slot :=
  let n := lower name in
  if has "ecal" n then Some (if has "plug" n then EcalPlug else if barrel then EcalBarrel else EcalEndcap)
  else if has "yoke" n then Some (if has "plug" n then YokePlug else if barrel then YokeBarrel else YokeEndcap)
  else if has "lcal" n then Some Lcal
  else if has "lhcal" n then Some LHcal
  else if has "beamcal" n then Some BeamCal
  else if has "hcal" n then Some (if has "ring" n then HcalRing else if barrel then HcalBarrel else HcalEndcap)
  else None.
(** ZPlanarParametersXML.cc 208-226 *)
Definition zp_place (name : string) : option zp_slot :=
  let n := lower name in
  if has "vxd" n then Some VXD else if has "sit" n then Some SIT else if has "set" n then Some SET else None.

(** GearMgrImpl.cc 464-525: the forward calorimeters get a crossing angle if they have none *)
Definition with_angle (p : params) : params :=
  match getDoubleVal p "beam_crossing_angle" with
  | Throw _ => setDoubleVal p "beam_crossing_angle" 0%R
  | _ => p
  end.
Definition forward (s : calo_slot) : bool := match s with Lcal | LHcal | BeamCal => true | _ => false end.
Definition as_stored (s : calo_slot) (o : calo_obj) : calo_obj := if forward s then (fst o, with_angle (snd o)) else o.

Definition set_name (g : content) (n : string) : content :=
  mkG n (g_field g) (g_tpc g) (g_calo g) (g_zp g) (g_ftd g) (g_tp g) (g_si g) (g_generic g) (g_mat g).
Definition set_field (g : content) (f : field_obj) : content :=
  mkG (g_name g) (Some f) (g_tpc g) (g_calo g) (g_zp g) (g_ftd g) (g_tp g) (g_si g) (g_generic g) (g_mat g).
Definition set_tpc (g : content) (t : tpc_obj) : content :=
  mkG (g_name g) (g_field g) (Some t) (g_calo g) (g_zp g) (g_ftd g) (g_tp g) (g_si g) (g_generic g) (g_mat g).
Definition set_calo (g : content) (s : calo_slot) (o : calo_obj) : content :=
  mkG (g_name g) (g_field g) (g_tpc g) (fun x => if calo_slot_eqb x s then Some (as_stored s o) else g_calo g x)
      (g_zp g) (g_ftd g) (g_tp g) (g_si g) (g_generic g) (g_mat g).
Definition set_zp (g : content) (s : zp_slot) (o : zp_obj) : content :=
  mkG (g_name g) (g_field g) (g_tpc g) (g_calo g) (fun x => if zp_slot_eqb x s then Some o else g_zp g x)
      (g_ftd g) (g_tp g) (g_si g) (g_generic g) (g_mat g).
Definition set_ftd (g : content) (o : ftd_obj) : content :=
  mkG (g_name g) (g_field g) (g_tpc g) (g_calo g) (g_zp g) (Some o) (g_tp g) (g_si g) (g_generic g) (g_mat g).
Definition set_tp (g : content) (o : tp_obj) : content :=
  mkG (g_name g) (g_field g) (g_tpc g) (g_calo g) (g_zp g) (g_ftd g) (Some o) (g_si g) (g_generic g) (g_mat g).
Definition set_si (g : content) (o : si_obj) : content :=
  mkG (g_name g) (g_field g) (g_tpc g) (g_calo g) (g_zp g) (g_ftd g) (g_tp g) (Some o) (g_generic g) (g_mat g).
Definition set_generic (g : content) (k : string) (p : params) : content :=
  mkG (g_name g) (g_field g) (g_tpc g) (g_calo g) (g_zp g) (g_ftd g) (g_tp g) (g_si g) (sm_set k p (g_generic g)) (g_mat g).
Definition set_mat (g : content) (k : string) (m : smat) : content :=
  mkG (g_name g) (g_field g) (g_tpc g) (g_calo g) (g_zp g) (g_ftd g) (g_tp g) (g_si g) (g_generic g) (sm_set k m (g_mat g)).

(** ** Reading, GearXML.cc 473-645 *)
(** one step: what was read is handed over; if it cannot be read, the manager stays as it is *)
Definition hand_over {O} (g : content) (r : result O) (f : O -> content) : sres content unit :=
  match r with
  | Ok o => SOk (f o) tt
  | Throw e => SThrow g e
  | UB => SUB
  end.
Definition sthen (r : sres content unit) (f : content -> sres content unit) : sres content unit :=
  match r with
  | SOk g _ => f g
  | SThrow g e => SThrow g e
  | SUB => SUB
  end.
Fixpoint each (f : content -> xnode -> sres content unit) (l : list xnode) (g : content) : sres content unit :=
  match l with
  | [] => SOk g tt
  | n :: r => sthen (f g n) (each f r)
  end.

(** the handlers, by the names of XMLHandlerMgr.cc 46-56 (strings: GEAR.cc 5-11) *)
Definition handle (g : content) (type name : string) (n : xnode) : sres content unit :=
  if String.eqb type "GearParameters" then
    hand_over g (parameters_fromXML n) (set_generic g name)                           (* GearParametersXML.cc 74-94 *)
  else if String.eqb type "TPCParameters" then hand_over g (tpc_fromXML n) (set_tpc g)
  else if String.eqb type "CalorimeterParameters" then
    hand_over g (calo_fromXML n) (fun o =>
      match calo_place name (match c_type (fst o) with BARREL => true | ENDCAP => false end) with
      | Some s => set_calo g s o
      | None => g
      end)
  else if String.eqb type "ZPlanarParameters" then
    hand_over g (zp_fromXML n) (fun o => match zp_place name with Some s => set_zp g s o | None => g end)
  else if String.eqb type "FTDParameters" then hand_over g (ftd_fromXML n) (set_ftd g)
  else if String.eqb type "TrackerPlanesParameters" then hand_over g (tp_fromXML n) (set_tp g)
  else if String.eqb type "SiPlanesParameters" then hand_over g (si_fromXML n) (set_si g)
  else SThrow g (EParse "unknown geartype").                                          (* 616-620 *)

(** lines 585-626: one <detector> *)
Definition read_detector (g : content) (n : xnode) : sres content unit :=
  match getXMLAttribute n "name" with
  | Ok name =>
      match getXMLAttribute n "geartype" with
      | Ok type => handle g (if String.eqb type "VXDParameters" then "ZPlanarParameters" else type) name n
      | _ => SOk g tt                                                                 (* 606-612 *)
      end
  | Throw e => SThrow g e
  | UB => SUB
  end.

(** lines 638-641 and SimpleMaterialXML.cc 32-68, GearMgrImpl.cc 607-621; a comment that reads
    "material" leads to a null pointer *)
Definition read_material (g : content) (n : xnode) : sres content unit :=
  if is_elem n then
    match smat_fromXML n with
    | Ok m => match sm_find (sm_name m) (g_mat g) with
              | Some _ => SThrow g (EGear "already registered")
              | None => SOk (set_mat g (sm_name m) m) tt
              end
    | Throw e => SThrow g e
    | UB => SUB
    end
  else SUB.

(** lines 511-549 and 570-645, on the root element *)
Definition read_root (root : xnode) : sres content unit :=
  sthen (match FirstChild "global" root with                                          (* 520-524 *)
         | Some n => hand_over new_content (getXMLAttribute n "detectorName") (set_name new_content)
         | None => SOk new_content tt
         end) (fun g =>
  match FirstChild "detectors" root with                                              (* 526-530 *)
  | None => SThrow g (EParse "no detectors")
  | Some dets =>
      sthen (match FirstChild "BField" root with                                      (* 533-537 *)
             | Some n => if is_elem n then hand_over g (field_fromXML n) (set_field g) else SUB
             | None => SOk g tt
             end) (fun g =>
      sthen (match FirstChild "GDMLFile" root with                                    (* 540-580 *)
             | Some n => hand_over g (getXMLAttribute n "name") (fun _ => g)
             | None => SOk g tt
             end) (fun g =>
      sthen (each read_detector (IterateChildren "detector" dets) g) (fun g =>
      match FirstChild "materials" root with                                          (* 631-643 *)
      | None => SOk g tt
      | Some m => each read_material (IterateChildren "material" m) g
      end)))
  end).

(** lines 485-517: a file that cannot be read, or has no element, throws *)
Definition load (file : option string) : sres content unit :=
  match file with
  | None => SThrow new_content (EParse "cannot open")
  | Some s =>
      match LoadFile s with
      | POk (l, true) =>
          match find is_elem l with                                                   (* RootElement, tinyxml.h 1207-1208 *)
          | None => SThrow new_content (EParse "no root tag")
          | Some root => read_root root
          end
      | POk (_, false) => SThrow new_content (EParse "error in file")
      | _ => SUB
      end
  end.

(** createGearMgr: the reader keeps the manager (475-482) *)
Definition createGearMgr (st : option content) (file : option string) : sres (option content) content :=
  match st with
  | Some g => SOk st g
  | None =>
      match load file with
      | SOk g _ => SOk (Some g) g
      | SThrow g e => SThrow (Some g) e
      | SUB => SUB
      end
  end.

(** ** The setters of the manager, GearMgrImpl.h 229 (setDetectorName), GearMgrImpl.cc 199-204 (setGearParameters), 386-621 *)
Inductive gcall : Type :=
| SetDetectorName (n : string) | SetBField (f : field_obj) | SetTPC (t : tpc_obj) | SetCalorimeter (s : calo_slot) (o : calo_obj)
| SetLadders (s : zp_slot) (o : zp_obj) | SetFTD (o : ftd_obj) | SetTrackerPlanes (o : tp_obj) | SetSiPlanes (o : si_obj)
| SetGearParameters (k : string) (p : params) | RegisterMaterial (m : smat).
(** a material whose name is known is refused (607-617) *)
Definition do_call (g : content) (c : gcall) : content :=
  match c with
  | SetDetectorName n => set_name g n
  | SetBField f => set_field g f
  | SetTPC t => set_tpc g t
  | SetCalorimeter s o => set_calo g s o
  | SetLadders s o => set_zp g s o
  | SetFTD o => set_ftd g o
  | SetTrackerPlanes o => set_tp g o
  | SetSiPlanes o => set_si g o
  | SetGearParameters k p => set_generic g k p
  | RegisterMaterial m => match sm_find (sm_name m) (g_mat g) with Some _ => g | None => set_mat g (sm_name m) m end
  end.
(** a manager after some calls *)
Definition built (h : list gcall) : content := fold_left do_call h new_content.
