(** Model of the XML handlers of the TPC: src/gearxml/TPCParametersXML.cc, TPCModuleXML.cc and the
    choice of the layout handler, src/gearxml/PadRowLayout2DXML.cc.  The dynamic_cast to the handler's
    own type succeeds, the element that is read is not null, and the registration with the manager is
    left to GearXmlModel.  An exception in fromXML leaks the objects under construction. *)
From Coq Require Import ZArith List String Ascii Bool Reals.
From Verif Require Import Base RBase XmlModel NumModel HxModel ParamsModel ParXmlModel PadXmlModel TpcModuleModel TpcModel.
Import ListNotations.
Local Open Scope string_scope.

Local Notation "'do' x <- a ; b" := (rbind a (fun x => b)) (at level 100, x name, a at level 99, b at level 200).

(** ** PadRowLayout2DXML.cc 15-59: the handler is found by getPadLayoutImplType or by the type's name,
    and the four handlers are always in the map. *)
Definition lay_toXML (p : layout2d) : result xnode :=
  match p with
  | LRect l => rect_toXML l
  | LFps l => fps_toXML l
  | LFpa l => fpa_toXML l
  | LVd l => vd_toXML l
  end.
Definition lay_fromXML (n : xnode) : result layout2d :=
  do type <- getXMLAttribute n "type";
  if String.eqb type "RectangularPadRowLayout" then rmap LRect (rect_fromXML n)
  else if String.eqb type "FixedPadSizeDiskLayout" then rmap LFps (fps_fromXML n)
  else if String.eqb type "FixedPadAngleDiskLayout" then rmap LFpa (fpa_fromXML n)
  else if String.eqb type "VersatileDiskRowLayout" then rmap LVd (vd_fromXML n)
  else Throw (EParse type).

(** ** TPCModuleXML.cc *)
Definition value_elem (name value : string) : xnode := XElem name (attrs_of [("value", value)]) [].

(** lines 19-70 toXML *)
Definition module_toXML (o : module * params) : result xnode :=
  let (m, ps) := o in
  do lay <- lay_toXML (m_layout m);
  do es <- params_to_xml ps;
  Ok (XElem "module" []
       ([value_elem "moduleID" (print_int (getModuleID m));
         value_elem "readoutFrequency" (print_double (TpcModuleModel.getReadoutFrequency m)); lay;
         XElem "offset" (attrs_of [("x_r", print_double (fst (getOffset m))); ("y_phi", print_double (snd (getOffset m)))]) []] ++
        (match getZPosition m with Some z => [value_elem "zPosition" (print_double z)] | None => [] end) ++
        [value_elem "angle" (print_double (getAngle m));
         value_elem "enlargeActiveAreaBy" (print_double (getBorderWidth m))] ++ es)).

(** an element of the module, or else of the default module if there is one (79-83 and repeated below) *)
Definition tag (me : xnode) (de : option xnode) (name : string) : option xnode :=
  match FirstChildElement name me with
  | Some e => Some e
  | None => match de with Some d => FirstChildElement name d | None => None end
  end.
Definition required (o : option xnode) (name : string) : result xnode :=
  match o with Some e => Ok e | None => Throw (EParse name) end.
(** a setter that is called if the element is there *)
Definition if_there (o : option xnode) (f : xnode -> result (sres module unit)) (m : module) : result module :=
  match o with Some e => rbind (f e) outcome | None => Ok m end.

(** lines 73-184 fromXML.  The two arguments in 143-144 are read in an unspecified order, which only
    decides which of two missing attributes is reported. *)
Definition module_fromXML (me : xnode) (de : option xnode) (type id : Z) : result (module * params) :=
  do id <- match tag me de "moduleID" with Some e => get_int e "value" | None => Ok id end;        (* 79-87 *)
  do fe <- required (tag me de "readoutFrequency") "readoutFrequency";                             (* 92-101 *)
  do freq <- get_int fe "value";                                                                   (* 102: atoi *)
  do pe <- required (tag me de "PadRowLayout2D") "PadRowLayout2D";                                 (* 105-114 *)
  do p <- lay_fromXML pe;                                                                          (* 116-124 *)
  let m := new_module id p type (IZR freq) in                                                      (* 128 *)
  do m <- if_there (tag me de "offset")
            (fun e => do x <- get_double e "x_r"; do y <- get_double e "y_phi"; Ok (setOffset m x y)) m;   (* 136-145 *)
  do m <- if_there (tag me de "zPosition") (fun e => do z <- get_double e "value"; Ok (setZPosition m z)) m;  (* 148-157 *)
  do m <- if_there (tag me de "angle") (fun e => do a <- get_double e "value"; Ok (setAngle m a)) m;          (* 159-167 *)
  do m <- if_there (tag me de "enlargeActiveAreaBy")
            (fun e => do b <- get_double e "value"; Ok (setBorderWidth m b)) m;                    (* 170-178 *)
  do ps <- params_from_xml me params_empty;                                                        (* 181 *)
  Ok (m, ps).

(** ** TPCParametersXML.cc *)
(** a TPC with the modules in memory, the parameters of each module and its own parameters *)
Record tpc_obj := mkTO { to_world : world; to_mpar : Z -> params; to_par : params }.

(** lines 38-47 *)
Definition type_name (type : Z) : result string :=
  if (type =? CARTESIAN)%Z then Ok "cartesian" else if (type =? POLAR)%Z then Ok "polar"
  else Throw (EParse "coordinateType").

(** lines 17-69 toXML *)
Definition tpc_toXML (o : tpc_obj) : result xnode :=
  let h := w_heap (to_world o) in
  let t := w_tpc (to_world o) in
  do ty <- type_name (getCoordinateType t);
  do ms <- rall (fun a => module_toXML (h a, to_mpar o a)) (getModules t);
  do es <- params_to_xml (to_par o);
  Ok (XElem "detector" (attrs_of [("geartype", "TPCParameters")])
       ([value_elem "maxDriftLength" (print_double (getMaxDriftLength t));
         value_elem "driftVelocity" (print_double (getDriftVelocity t));
         value_elem "coordinateType" ty; XElem "modules" [] ms] ++ es)).

(** the TPC under construction: the modules, the TPC and the parameters of the modules.  The k-th
    module is made at address k. *)
Definition building : Type := heap * tpc * (Z -> params).
Definition next_address (t : tpc) : Z := Z.of_nat (List.length (t_mods t)).
(** nothing in memory is looked at before it is made *)
Definition no_modules : heap := fun _ => new_module 0 (LVd (VdModel.new_vd 0)) CARTESIAN 0.
Definition new_tpc_obj (drift : R) (type : Z) : building := (no_modules, new_tpc drift type, fun _ => params_empty).

(** lines 203-206: one <module>; [id] is the number counted in the section.  The int may overflow. *)
Definition read_module (type : Z) (b : building) (me : xnode) (de : option xnode) (id : Z) : result building :=
  let '(h, t, mp) := b in
  if ((-2147483648 <=? id) && (id <=? 2147483647))%Z%bool then
    do o <- module_fromXML me de type id;
    let a := next_address t in
    let h' := heap_set h a (fst o) in
    do t' <- outcome (addModule h' t (Some a));
    Ok (h', t', fun x => if (x =? a)%Z then snd o else mp x)
  else UB.

(** lines 172-207: the nodes of a <modules> section *)
Fixpoint read_nodes (type : Z) (ns : list xnode) (de : option xnode) (id : Z) (b : building) : result building :=
  match ns with
  | [] => Ok b
  | n :: r =>
      if negb (is_elem n) then read_nodes type r de id b                                           (* 184 *)
      else if String.eqb (Value n) "default" then read_nodes type r (Some n) id b                  (* 187-191 *)
      else if negb (String.eqb (Value n) "module") then read_nodes type r de id b                  (* 194-200 *)
      else do b' <- read_module type b n de id; read_nodes type r de (id + 1) b'                   (* 203 *)
  end.

(** lines 153-208: one <modules> section *)
Definition read_section (type : Z) (b : building) (sec : xnode) : result building :=
  do start <- atoi (getOptionalXMLAttribute sec "moduleIDStartCount" "0");                         (* 159 *)
  read_nodes type (children sec) (FirstChildElement "default" sec) start b.

(** lines 153-154: the loop ends at a node called "modules" that is not an element *)
Fixpoint sections (l : list xnode) : list xnode :=
  match l with
  | [] => []
  | n :: t => if is_elem n then n :: sections t else []
  end.

(** lines 94-100 *)
Definition type_of_name (s : string) : result Z :=
  if String.eqb s "cartesian" then Ok CARTESIAN else if String.eqb s "polar" then Ok POLAR
  else Throw (EParse "coordinateType").

(** lines 108-138: the TPC of an old file *)
Definition read_old (n : xnode) (drift : R) : result building :=
  do le <- required (FirstChildElement "PadRowLayout2D" n) "PadRowLayout2D";                       (* 109-118 *)
  do p <- lay_fromXML le;                                                                          (* 120-129 *)
  do w <- outcome (setPadLayout (mkW no_modules (new_tpc drift (lay_type p))) 0 (Some p));         (* 132-134 *)
  do v <- rmap atof (getChildElementValue n "driftVelocity");                                      (* 137 *)
  do f <- rmap atof (getChildElementValue n "readoutFrequency");                                   (* 138 *)
  do w <- outcome (TpcModel.setReadoutFrequency (mkW (w_heap w) (setDriftVelocity (w_tpc w) v)) f);
  Ok (w_heap w, w_tpc w, fun _ => params_empty).

(** lines 72-222 fromXML *)
Definition tpc_fromXML (n : xnode) : result tpc_obj :=
  do drift <- rmap atof (getChildElementValue n "maxDriftLength");                                 (* 81 *)
  do ts <- getOptionalChildElementValue n "coordinateType" "";                                     (* 84 *)
  do b <- (if String.eqb ts "" then read_old n drift                                               (* 85 *)
           else do type <- type_of_name ts;
                rfold (read_section type) (sections (IterateChildren "modules" n)) (new_tpc_obj drift type));  (* 144-208 *)
  do ps <- params_from_xml n params_empty;                                                         (* 213 *)
  let '(h, t, mp) := b in
  Ok (mkTO (mkW h t) mp ps).
