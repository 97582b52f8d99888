(** What becomes of a whole geometry that is saved and loaded. *)
From Coq Require Import ZArith List String Ascii Bool Reals.
From Verif Require Import Base RBase XmlModel XmlSpec HxModel HxSpec ParamsModel ParamsSpec ParXmlModel ParXmlSpec CaloModel CaloXmlModel
  TrkModel TrkXmlModel TrkXmlSpec TpcModuleModel TpcModel TpcXmlModel TpcXmlSpec GearXmlModel.
Import ListNotations.

(** parameters set by any calls, with names and values the file format can hold (C31, C32) *)
Definition params_ok (p : params) : Prop := (exists h, p = ParamsSpec.after h) /\ storable p.

(** all texts in the manager can be written *)
Definition texts_ok (g : content) : Prop :=
  clean_text (g_name g) /\
  (forall o, g_field g = Some o -> params_ok (snd o)) /\
  (forall o, g_tpc g = Some o -> params_ok (to_par o) /\ forall a, In a (getModules (w_tpc (to_world o))) -> params_ok (to_mpar o a)) /\
  (forall s o, g_calo g s = Some o -> params_ok (snd o)) /\
  (forall s o, g_zp g s = Some o -> params_ok (snd o)) /\
  (forall o, g_ftd g = Some o -> params_ok (snd o)) /\
  (forall o, g_tp g = Some o -> params_ok (snd o) /\ forall l, In l (tp_layers (fst o)) -> tl_ok l) /\
  (forall o, g_si g = Some o -> params_ok (snd o)) /\
  (forall k p, sm_find k (g_generic g) = Some p -> clean_text k /\ params_ok p) /\
  (forall k m, sm_find k (g_mat g) = Some m -> clean_text k).

(** what is in a slot, on its own in a file, can be saved and loaded *)
Definition comes_back {O} (write : O -> result xnode) (read : xnode -> result O) (o : option O) : Prop :=
  match o with None => True | Some x => exists y, reload write read x = Ok y end.
Definition all_come_back (g : content) : Prop :=
  comes_back tpc_toXML tpc_fromXML (g_tpc g) /\
  (forall s, comes_back calo_toXML calo_fromXML (g_calo g s)) /\
  (forall s, comes_back zp_toXML zp_fromXML (g_zp g s)) /\
  comes_back ftd_toXML ftd_fromXML (g_ftd g) /\
  comes_back tp_toXML tp_fromXML (g_tp g) /\
  comes_back si_toXML si_fromXML (g_si g).

(** the slot holds what came back; C34, C36, C37, C66 say what this is *)
Definition back_in {O} (write : O -> result xnode) (read : xnode -> result O) (before after : option O) : Prop :=
  match before with
  | None => after = None
  | Some x => exists y, reload write read x = Ok y /\ after = Some y
  end.

(** Where a calorimeter is put when it is loaded: the shape decides between barrel and endcap. *)
Definition lands (s : calo_slot) (o : calo_obj) : calo_slot :=
  match s, c_type (fst o) with
  | EcalBarrel, ENDCAP => EcalEndcap
  | EcalEndcap, BARREL => EcalBarrel
  | YokeBarrel, ENDCAP => YokeEndcap
  | YokeEndcap, BARREL => YokeBarrel
  | HcalBarrel, ENDCAP => HcalEndcap
  | HcalEndcap, BARREL => HcalBarrel
  | s, _ => s
  end.
(** the shape is that of the slot *)
Definition fits (g : content) (s : calo_slot) : Prop := forall o, g_calo g s = Some o -> lands s o = s.
(** The order in which the calorimeters appear in the file. *)
Definition saved_order : list calo_slot :=
  [EcalBarrel; EcalEndcap; EcalPlug; YokeBarrel; YokeEndcap; YokePlug; HcalBarrel; HcalEndcap; HcalRing; Lcal; LHcal; BeamCal].
(** [t] is written after [s] *)
Definition written_later (s t : calo_slot) : Prop := exists a b, saved_order = a ++ s :: b /\ In t b.

(** the manager [g'] holds what came back of [g] *)
Definition loaded_apart_from_calorimeters (g g' : content) : Prop :=
  g_name g' = (if String.eqb (g_name g) "" then "Unknown" else g_name g)%string /\
  back_in field_toXML field_fromXML (g_field g) (g_field g') /\
  back_in tpc_toXML tpc_fromXML (g_tpc g) (g_tpc g') /\
  (forall s, back_in zp_toXML zp_fromXML (g_zp g s) (g_zp g' s)) /\
  back_in ftd_toXML ftd_fromXML (g_ftd g) (g_ftd g') /\
  back_in tp_toXML tp_fromXML (g_tp g) (g_tp g') /\
  back_in si_toXML si_fromXML (g_si g) (g_si g') /\
  (forall k, match sm_find k (g_generic g) with
             | None => sm_find k (g_generic g') = None
             | Some p => exists q, came_back p q /\ sm_find k (g_generic g') = Some q
             end) /\
  (forall k, back_in smat_toXML smat_fromXML (sm_find k (g_mat g)) (sm_find k (g_mat g'))).
Definition calorimeters_loaded (g g' : content) : Prop :=
  forall s y, g_calo g' s = Some y <->
    exists t o, g_calo g t = Some o /\ lands t o = s /\ reload calo_toXML calo_fromXML o = Ok y /\
      forall t' o', written_later t t' -> g_calo g t' = Some o' -> lands t' o' <> s.

(** every detector and all parameters survive saving and loading on their own (when this is so, say C32, C34, C36, C37 and C66) *)
Definition stays {O} (write : O -> result xnode) (read : xnode -> result O) (o : option O) : Prop :=
  forall x, o = Some x -> reload write read x = Ok x.
Definition all_survive (g : content) : Prop :=
  stays field_toXML field_fromXML (g_field g) /\
  stays tpc_toXML tpc_fromXML (g_tpc g) /\
  (forall s, stays calo_toXML calo_fromXML (g_calo g s)) /\
  (forall s, stays zp_toXML zp_fromXML (g_zp g s)) /\
  stays ftd_toXML ftd_fromXML (g_ftd g) /\
  stays tp_toXML tp_fromXML (g_tp g) /\
  stays si_toXML si_fromXML (g_si g) /\
  (forall k p, sm_find k (g_generic g) = Some p -> came_back p p) /\
  (forall k m, sm_find k (g_mat g) = Some m -> reload smat_toXML smat_fromXML m = Ok m).
(** all getters answer the same *)
Definition same_content (g g' : content) : Prop :=
  g_name g' = g_name g /\ g_field g' = g_field g /\ g_tpc g' = g_tpc g /\ (forall s, g_calo g' s = g_calo g s) /\ (forall s, g_zp g' s = g_zp g s) /\
  g_ftd g' = g_ftd g /\ g_tp g' = g_tp g /\ g_si g' = g_si g /\ (forall k, sm_find k (g_generic g') = sm_find k (g_generic g)) /\
  (forall k, sm_find k (g_mat g') = sm_find k (g_mat g)).

(** ** What a file says *)
(** The calls that a <detector> element stands for: none if it has no type, or if it is a calorimeter
    or a ladder detector with a name the reader does not know. *)
(** [d] is the letter [c], as a small letter if [c] is one of A to Z *)
Definition small_letter (c d : ascii) : Prop :=
  ((65 <= byte c <= 90)%Z /\ byte d = (byte c + 32)%Z) \/ (~ (65 <= byte c <= 90)%Z /\ d = c).
Inductive in_small_letters : string -> string -> Prop :=
| small_nil : in_small_letters "" ""
| small_cons : forall c d s t, small_letter c d -> in_small_letters s t -> in_small_letters (String c s) (String d t).
(** [word] appears in [name], in small or capital letters *)
Definition mentions (word name : string) : Prop := exists a w b, name = String.append a (String.append w b) /\ in_small_letters w word.
Definition calo_named (name : string) (shape : calotype) (s : calo_slot) : Prop :=
  let by_shape b e := match shape with BARREL => b | ENDCAP => e end in
  (mentions "ecal" name /\ ((mentions "plug" name /\ s = EcalPlug) \/ (~ mentions "plug" name /\ s = by_shape EcalBarrel EcalEndcap))) \/
  (~ mentions "ecal" name /\ mentions "yoke" name /\
     ((mentions "plug" name /\ s = YokePlug) \/ (~ mentions "plug" name /\ s = by_shape YokeBarrel YokeEndcap))) \/
  (~ mentions "ecal" name /\ ~ mentions "yoke" name /\
     ((mentions "lcal" name /\ s = Lcal) \/
      (~ mentions "lcal" name /\ mentions "lhcal" name /\ s = LHcal) \/
      (~ mentions "lcal" name /\ ~ mentions "lhcal" name /\ mentions "beamcal" name /\ s = BeamCal) \/
      (~ mentions "lcal" name /\ ~ mentions "lhcal" name /\ ~ mentions "beamcal" name /\ mentions "hcal" name /\
         ((mentions "ring" name /\ s = HcalRing) \/ (~ mentions "ring" name /\ s = by_shape HcalBarrel HcalEndcap))))).
Definition zp_named (name : string) (s : zp_slot) : Prop :=
  (mentions "vxd" name /\ s = VXD) \/ (~ mentions "vxd" name /\ mentions "sit" name /\ s = SIT) \/
  (~ mentions "vxd" name /\ ~ mentions "sit" name /\ mentions "set" name /\ s = SET).

Definition attr (n : xnode) (k v : string) : Prop := getXMLAttribute n k = Ok v.
Inductive det_says (d : xnode) : list gcall -> Prop :=
| says_untyped : forall n, attr d "name" n -> (forall t, ~ attr d "geartype" t) -> det_says d []
| says_params : forall n p, attr d "name" n -> attr d "geartype" "GearParameters" -> parameters_fromXML d = Ok p -> det_says d [SetGearParameters n p]
| says_tpc : forall n t, attr d "name" n -> attr d "geartype" "TPCParameters" -> tpc_fromXML d = Ok t -> det_says d [SetTPC t]
| says_calo : forall n o s, attr d "name" n -> attr d "geartype" "CalorimeterParameters" -> calo_fromXML d = Ok o ->
    calo_named n (c_type (fst o)) s -> det_says d [SetCalorimeter s o]
| says_no_calo : forall n o, attr d "name" n -> attr d "geartype" "CalorimeterParameters" -> calo_fromXML d = Ok o ->
    (forall s, ~ calo_named n (c_type (fst o)) s) -> det_says d []
| says_ladders : forall n ty o s, attr d "name" n -> attr d "geartype" ty -> ty = "ZPlanarParameters"%string \/ ty = "VXDParameters"%string ->
    zp_fromXML d = Ok o -> zp_named n s -> det_says d [SetLadders s o]
| says_no_ladders : forall n ty o, attr d "name" n -> attr d "geartype" ty -> ty = "ZPlanarParameters"%string \/ ty = "VXDParameters"%string ->
    zp_fromXML d = Ok o -> (forall s, ~ zp_named n s) -> det_says d []
| says_ftd : forall n o, attr d "name" n -> attr d "geartype" "FTDParameters" -> ftd_fromXML d = Ok o -> det_says d [SetFTD o]
| says_tp : forall n o, attr d "name" n -> attr d "geartype" "TrackerPlanesParameters" -> tp_fromXML d = Ok o -> det_says d [SetTrackerPlanes o]
| says_si : forall n o, attr d "name" n -> attr d "geartype" "SiPlanesParameters" -> si_fromXML d = Ok o -> det_says d [SetSiPlanes o].
Inductive dets_say : list xnode -> list gcall -> Prop :=
| say_nothing : dets_say [] []
| say_more : forall d l a b, det_says d a -> dets_say l b -> dets_say (d :: l) (a ++ b).

Definition name_says (root : xnode) (cs : list gcall) : Prop :=
  (FirstChild "global" root = None /\ cs = []) \/ (exists n v, FirstChild "global" root = Some n /\ attr n "detectorName" v /\ cs = [SetDetectorName v]).
Definition field_says (root : xnode) (cs : list gcall) : Prop :=
  (FirstChild "BField" root = None /\ cs = []) \/
  (exists n f, FirstChild "BField" root = Some n /\ is_elem n = true /\ field_fromXML n = Ok f /\ cs = [SetBField f]).
Definition gdml_named (root : xnode) : Prop := forall n, FirstChild "GDMLFile" root = Some n -> exists v, attr n "name" v.
(** materials have different names *)
Definition mats_say (l : list xnode) (ms : list smat) : Prop :=
  Forall2 (fun n m => is_elem n = true /\ smat_fromXML n = Ok m) l ms /\ NoDup (map sm_name ms).
Definition material_elems (root : xnode) : list xnode := match FirstChild "materials" root with Some m => IterateChildren "material" m | None => [] end.

(** the whole file stands for the calls [cs] *)
Definition file_says (root : xnode) (cs : list gcall) : Prop :=
  exists name field dets ms d, name_says root name /\ field_says root field /\ gdml_named root /\ FirstChild "detectors" root = Some d /\
    dets_say (IterateChildren "detector" d) dets /\ mats_say (material_elems root) ms /\ cs = name ++ field ++ dets ++ map RegisterMaterial ms.

(** The file up to the first thing that cannot be read stands for the calls [cs]. *)
Inductive says_until_failure (root : xnode) : list gcall -> Prop :=
| fails_name : forall n, FirstChild "global" root = Some n -> (forall v, ~ attr n "detectorName" v) -> says_until_failure root []
| fails_detectors : forall name, name_says root name -> FirstChild "detectors" root = None -> says_until_failure root name
| fails_field : forall name n, name_says root name -> FirstChild "BField" root = Some n -> (forall f, field_fromXML n <> Ok f) -> says_until_failure root name
| fails_gdml : forall name field n, name_says root name -> field_says root field -> FirstChild "GDMLFile" root = Some n -> (forall v, ~ attr n "name" v) ->
    says_until_failure root (name ++ field)
| fails_detector : forall name field d a x b dets, name_says root name -> field_says root field -> FirstChild "detectors" root = Some d ->
    IterateChildren "detector" d = a ++ x :: b -> dets_say a dets -> (forall cs, ~ det_says x cs) -> says_until_failure root (name ++ field ++ dets)
| fails_material : forall name field d dets a x b ms, name_says root name -> field_says root field -> FirstChild "detectors" root = Some d ->
    dets_say (IterateChildren "detector" d) dets -> material_elems root = a ++ x :: b -> mats_say a ms ->
    (forall m, smat_fromXML x = Ok m -> In (sm_name m) (map sm_name ms)) -> says_until_failure root (name ++ field ++ dets ++ map RegisterMaterial ms).

Definition root_element (s : string) (root : xnode) : Prop := exists l, LoadFile s = POk (l, true) /\ find is_elem l = Some root.
(** the answers of one reader to a list of calls, each with the file there is at that time *)
Fixpoint answers (st : option content) (files : list (option string)) : list (sres (option content) content) :=
  match files with
  | [] => []
  | f :: r => let a := createGearMgr st f in a :: match a with SOk st' _ => answers st' r | SThrow st' _ => answers st' r | SUB => [] end
  end.

(** the argument of the last call of a kind, and of the first one *)
Fixpoint last_set {A} (pick : gcall -> option A) (cs : list gcall) : option A :=
  match cs with
  | [] => None
  | c :: r => match last_set pick r with Some x => Some x | None => pick c end
  end.
Fixpoint first_set {A} (pick : gcall -> option A) (cs : list gcall) : option A :=
  match cs with
  | [] => None
  | c :: r => match pick c with Some x => Some x | None => first_set pick r end
  end.
(** a forward calorimeter without a crossing angle gets the angle 0 (C04) *)
Definition with_crossing_angle (s : calo_slot) (o : calo_obj) (o' : calo_obj) : Prop :=
  if match s with Lcal | LHcal | BeamCal => true | _ => false end
  then fst o' = fst o /\ (forall v, getDoubleVal (snd o) "beam_crossing_angle" = Ok v -> snd o' = snd o) /\
       ((forall v, getDoubleVal (snd o) "beam_crossing_angle" <> Ok v) -> snd o' = setDoubleVal (snd o) "beam_crossing_angle" 0%R)
  else o' = o.
(** what the getters of a manager answer after the calls [cs] *)
Definition answers_of (cs : list gcall) (g : content) : Prop :=
  g_name g = match last_set (fun c => match c with SetDetectorName n => Some n | _ => None end) cs with Some n => n | None => ""%string end /\
  g_field g = last_set (fun c => match c with SetBField f => Some f | _ => None end) cs /\
  g_tpc g = last_set (fun c => match c with SetTPC t => Some t | _ => None end) cs /\
  (forall s, match last_set (fun c => match c with SetCalorimeter s' o => if calo_slot_eqb s s' then Some o else None | _ => None end) cs with
             | None => g_calo g s = None
             | Some o => exists o', with_crossing_angle s o o' /\ g_calo g s = Some o'
             end) /\
  (forall s, g_zp g s = last_set (fun c => match c with SetLadders s' o => if zp_slot_eqb s s' then Some o else None | _ => None end) cs) /\
  g_ftd g = last_set (fun c => match c with SetFTD o => Some o | _ => None end) cs /\
  g_tp g = last_set (fun c => match c with SetTrackerPlanes o => Some o | _ => None end) cs /\
  g_si g = last_set (fun c => match c with SetSiPlanes o => Some o | _ => None end) cs /\
  (forall k, sm_find k (g_generic g) = last_set (fun c => match c with SetGearParameters k' p => if String.eqb k k' then Some p else None | _ => None end) cs) /\
  (forall k, sm_find k (g_mat g) = first_set (fun c => match c with RegisterMaterial m => if String.eqb k (sm_name m) then Some m else None | _ => None end) cs).
