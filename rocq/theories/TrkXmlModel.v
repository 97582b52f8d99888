(** Model of the XML handlers of the trackers, the field and the materials:
    src/gearxml/ZPlanarParametersXML.cc, FTDParametersXML.cc, SiPlanesParametersXML.cc,
    TrackerPlanesParametersXML.cc, ConstantBFieldXML.cc and SimpleMaterialXML.cc.  The dynamic_cast to
    the handler's own type succeeds, the element that is read is not null, and the registration with
    the manager is left to GearXmlModel.  An exception in fromXML leaks the object under construction.
    Simplification: where several subobjects are read, the order of the reads is that of the code. *)
From Coq Require Import ZArith List String Ascii Bool Reals.
From Verif Require Import Base RBase VecModel XmlModel NumModel HxModel ParamsModel ParXmlModel ZpModel FtdModel TrkModel.
Import ListNotations.
Local Open Scope string_scope.

Local Notation "'do' x <- a ; b" := (rbind a (fun x => b)) (at level 100, x name, a at level 99, b at level 200).

(** getXMLAttribute of a pointer that may be null: node->ToElement() is called first (XMLHandlerMgr.cc 91) *)
Definition attr_of (o : option xnode) (name : string) : result string :=
  match o with Some n => getXMLAttribute n name | None => UB end.
Definition double_of (o : option xnode) (name : string) : result R := rmap atof (attr_of o name).
Definition int_of (o : option xnode) (name : string) : result Z := rbind (attr_of o name) atoi.
(** getOptionalXMLAttribute: the null pointer is not caught *)
Definition opt_attr_of (o : option xnode) (name default : string) : result string :=
  match o with Some n => Ok (getOptionalXMLAttribute n name default) | None => UB end.
Definition opt_double_of (o : option xnode) (name default : string) : result R := rmap atof (opt_attr_of o name default).
Definition opt_int_of (o : option xnode) (name default : string) : result Z := rbind (opt_attr_of o name default) atoi.
(** node->IterateChildren( name, ... ) for a pointer that may be null *)
Definition iterate_of (o : option xnode) (name : string) : result (list xnode) :=
  match o with Some n => Ok (IterateChildren name n) | None => UB end.

(** the indices 0 .. n-1 of a for loop *)
Definition indices (n : Z) : list Z := map Z.of_nat (seq 0 (Z.to_nat n)).

(** ** ZPlanarParametersXML.cc *)
Definition zp_obj : Type := zplanar * params.

(** lines 36-53 *)
Definition technology (type : Z) : string :=
  if (type =? 1)%Z then "CCD" else if (type =? 2)%Z then "CMOS" else if (type =? 3)%Z then "HYBRID" else "Unknown".

(** lines 85-108: one <layer> *)
Definition zp_layer_elem (p : zplanar) (i : Z) : result xnode :=
  do n <- zp_getNLadders p i; do phi0 <- zp_getPhi0 p i;
  do ld <- zp_getLadderDistance p i; do lt <- zp_getLadderThickness p i; do lw <- zp_getLadderWidth p i;
  do ll <- zp_getLadderLength p i; do lo <- zp_getLadderOffset p i; do lr <- zp_getLadderRadLength p i;
  do sd <- zp_getSensitiveDistance p i; do st <- zp_getSensitiveThickness p i; do sw <- zp_getSensitiveWidth p i;
  do sl <- zp_getSensitiveLength p i; do so <- zp_getSensitiveOffset p i; do sr <- zp_getSensitiveRadLength p i;
  Ok (XElem "layer" (attrs_of [("nLadders", print_int n); ("phi0", print_double phi0)])
       [XElem "ladder" (attrs_of [("distance", print_double ld); ("thickness", print_double lt); ("width", print_double lw);
                                  ("length", print_double ll); ("offset", print_double lo); ("radLength", print_double lr)]) [];
        XElem "sensitive" (attrs_of [("distance", print_double sd); ("thickness", print_double st); ("width", print_double sw);
                                     ("length", print_double sl); ("offset", print_double so); ("radLength", print_double sr)]) []]).

(** lines 17-120 toXML *)
Definition zp_toXML (o : zp_obj) : result xnode :=
  let (p, ps) := o in
  do ls <- rall (zp_layer_elem p) (indices (zp_getNLayers p));
  do es <- params_to_xml ps;
  Ok (XElem "detector" []
       ([XElem "type" (attrs_of [("technology", technology (z_type p))]) [];
         XElem "shell" (attrs_of [("halfLength", print_double (z_half p)); ("gap", print_double (z_gap p));
                                  ("innerRadius", print_double (z_rIn p)); ("outerRadius", print_double (z_rOut p));
                                  ("radLength", print_double (z_rad p))]) [];
         XElem "layers" [] ls] ++ es)).

(** lines 180-192: the six numbers of a ladder or sensitive part *)
Definition read_zpart (o : option xnode) : result zpart :=
  do d <- double_of o "distance"; do t <- double_of o "thickness"; do w <- double_of o "width";
  do l <- double_of o "length"; do f <- double_of o "offset"; do r <- double_of o "radLength";
  Ok (mkZP d f t l w r).
(** lines 174-196: one <layer> *)
Definition read_zlayer (p : zplanar) (n : xnode) : result zplanar :=
  do k <- get_int n "nLadders"; do phi0 <- get_double n "phi0";
  do lad <- read_zpart (FirstChildElement "ladder" n); do sen <- read_zpart (FirstChildElement "sensitive" n);
  Ok (zp_addLayer p (mkZA k phi0 lad sen)).
(** lines 122-202 fromXML *)
Definition zp_fromXML (n : xnode) : result zp_obj :=
  let typeEle := match FirstChildElement "type" n with None => FirstChildElement "vxdType" n | t => t end in
  do type <- attr_of typeEle "technology";
  do intType <- (if String.eqb type "CCD" then Ok 1%Z else if String.eqb type "CMOS" then Ok 2%Z
                 else if String.eqb type "HYBRID" then Ok 3%Z else Throw (EGear type));
  let shell := FirstChildElement "shell" n in
  do half <- double_of shell "halfLength"; do gap <- double_of shell "gap"; do rIn <- double_of shell "innerRadius";
  do rOut <- double_of shell "outerRadius"; do rad <- double_of shell "radLength";
  do ls <- iterate_of (FirstChildElement "layers" n) "layer";
  do p <- rfold read_zlayer ls (new_zplanar intType rIn rOut half gap rad);
  do ps <- params_from_xml n params_empty;
  Ok (p, ps).

(** ** FTDParametersXML.cc *)
Definition ftd_obj : Type := ftd * params.

(** lines 46-56 *)
Definition sensor_type (type : Z) : string :=
  if (type =? 1)%Z then "PIXEL" else if (type =? 2)%Z then "STRIP" else "Unknown".

(** lines 41-86: one <layer>; SetAttribute of a bool is that of an int *)
Definition ftd_layer_elem (f : ftd) (i : Z) : result xnode :=
  do np <- ftd_getNPetals f i; do ns <- ftd_getNSensors f i; do ds <- ftd_isDoubleSided f i; do ty <- ftd_getSensorType f i;
  do op <- ftd_getPhiHalfDistance f i; do phi0 <- ftd_getPhi0 f i; do al <- ftd_getAlpha f i; do zo <- ftd_getZoffset f i;
  do zs <- ftd_getZoffsetSign0 f i; do zp <- ftd_getZposition f i;
  do lt <- ftd_getSupportThickness f i; do lw <- ftd_getSupportWidth f i; do lm <- ftd_getSupportLengthMin f i;
  do lx <- ftd_getSupportLengthMax f i; do li <- ftd_getSupportRinner f i; do lr <- ftd_getSupportRadLength f i;
  do st <- ftd_getSensitiveThickness f i; do sw <- ftd_getSensitiveWidth f i; do sm <- ftd_getSensitiveLengthMin f i;
  do sx <- ftd_getSensitiveLengthMax f i; do si <- ftd_getSensitiveRinner f i; do sr <- ftd_getSensitiveRadLength f i;
  Ok (XElem "layer" (attrs_of [("nPetals", print_int np); ("nSensors", print_int ns);
                               ("isDoubleSided", print_int (if (ds : bool) then 1 else 0)); ("sensorType", sensor_type ty);
                               ("petalOpenningAngle", print_double op); ("phi0", print_double phi0); ("alpha", print_double al);
                               ("zoffset", print_double zo); ("zsign0", print_double zs); ("zposition", print_double zp)])
       [XElem "support" (attrs_of [("thickness", print_double lt); ("width", print_double lw); ("lengthMin", print_double lm);
                                   ("lengthMax", print_double lx); ("rInner", print_double li); ("radLength", print_double lr)]) [];
        XElem "sensitive" (attrs_of [("thickness", print_double st); ("width", print_double sw); ("lengthMin", print_double sm);
                                     ("lengthMax", print_double sx); ("rInner", print_double si); ("radLength", print_double sr)]) []]).

(** lines 17-95 toXML *)
Definition ftd_toXML (o : ftd_obj) : result xnode :=
  let (f, ps) := o in
  do ls <- rall (ftd_layer_elem f) (indices (ftd_getNLayers f));
  do es <- params_to_xml ps;
  Ok (XElem "detector" [] ([XElem "layers" [] ls] ++ es)).

(** lines 111-160: one <layer> *)
Definition read_flayer (f : ftd) (n : xnode) : result ftd :=
  do np <- get_int n "nPetals"; do ns <- get_int n "nSensors"; do ds <- get_int n "isDoubleSided";
  do type <- getXMLAttribute n "sensorType";
  do ty <- (if String.eqb type "PIXEL" then Ok 1%Z else if String.eqb type "STRIP" then Ok 2%Z else Throw (EGear type));
  do op <- get_double n "petalOpenningAngle"; do phi0 <- get_double n "phi0"; do al <- get_double n "alpha";
  do zp <- get_double n "zposition"; do zo <- get_double n "zoffset"; do zs <- get_double n "zsign0";
  let lad := FirstChildElement "support" n in let sen := FirstChildElement "sensitive" n in
  do lt <- double_of lad "thickness"; do lw <- double_of lad "width"; do lm <- double_of lad "lengthMin";
  do lx <- double_of lad "lengthMax"; do li <- double_of lad "rInner"; do lr <- double_of lad "radLength";
  do st <- double_of sen "thickness"; do sw <- double_of sen "width"; do sm <- double_of sen "lengthMin";
  do sx <- double_of sen "lengthMax"; do si <- double_of sen "rInner"; do sr <- double_of sen "radLength";
  Ok (ftd_addLayer f (mkFA np ns (negb (ds =? 0)%Z) ty op phi0 al zp zo zs li lt lm lx lw lr si st sm sx sw sr)).

(** lines 97-164 fromXML *)
Definition ftd_fromXML (n : xnode) : result ftd_obj :=
  do ls <- iterate_of (FirstChildElement "layers" n) "layer";
  do f <- rfold read_flayer ls new_ftd;
  do ps <- params_from_xml n params_empty;
  Ok (f, ps).

(** ** SiPlanesParametersXML.cc *)
Definition si_obj : Type := siplanes * params.

(** lines 47-57 *)
Definition si_type_text (type : Z) : string :=
  if (type =? 1)%Z then "TelescopeWithDUT" else if (type =? 2)%Z then "TelescopeWithoutDUT" else "Unknown".

(** lines 73-107: <dut> *)
Definition dut_elem (s : siplanes) : xnode :=
  let l := si_dl s in let e := si_ds s in let q := se_plate e in
  XElem "dut" []
    [XElem "dut_ladder" (attrs_of [("ID", print_int (pl_ID l)); ("positionX", print_double (pl_X l)); ("positionY", print_double (pl_Y l));
        ("positionZ", print_double (pl_Z l)); ("sizeX", print_double (pl_SX l)); ("sizeY", print_double (pl_SY l));
        ("thickness", print_double (pl_T l)); ("radLength", print_double (pl_Rad l))]) [];
     XElem "dut_sensitive" (attrs_of [("ID", print_int (pl_ID q)); ("positionX", print_double (pl_X q)); ("positionY", print_double (pl_Y q));
        ("positionZ", print_double (pl_Z q)); ("sizeX", print_double (pl_SX q)); ("sizeY", print_double (pl_SY q));
        ("thickness", print_double (pl_T q)); ("npixelX", print_int (se_NX e)); ("npixelY", print_int (se_NY e));
        ("pitchX", print_double (se_PX e)); ("pitchY", print_double (se_PY e)); ("resolution", print_double (se_Res e));
        ("rotation1", print_double (se_R1 e)); ("rotation2", print_double (se_R2 e)); ("rotation3", print_double (se_R3 e));
        ("rotation4", print_double (se_R4 e)); ("radLength", print_double (pl_Rad q))]) []].

(** lines 116-153: one <layer> *)
Definition si_layer_elem (s : siplanes) (i : Z) : result xnode :=
  do l <- at_ (si_l s) i; do e <- at_ (si_s s) i;
  let q := se_plate e in
  Ok (XElem "layer" []
    [XElem "ladder" (attrs_of [("ID", print_int (pl_ID l)); ("positionX", print_double (pl_X l)); ("positionY", print_double (pl_Y l));
        ("positionZ", print_double (pl_Z l)); ("rotationXY", print_double (pl_RXY l)); ("rotationZX", print_double (pl_RZX l));
        ("rotationZY", print_double (pl_RZY l)); ("sizeX", print_double (pl_SX l)); ("sizeY", print_double (pl_SY l));
        ("thickness", print_double (pl_T l)); ("radLength", print_double (pl_Rad l))]) [];
     XElem "sensitive" (attrs_of [("ID", print_int (pl_ID q)); ("positionX", print_double (pl_X q)); ("positionY", print_double (pl_Y q));
        ("positionZ", print_double (pl_Z q)); ("sizeX", print_double (pl_SX q)); ("sizeY", print_double (pl_SY q));
        ("thickness", print_double (pl_T q)); ("npixelX", print_int (se_NX e)); ("npixelY", print_int (se_NY e));
        ("pitchX", print_double (se_PX e)); ("pitchY", print_double (se_PY e)); ("resolution", print_double (se_Res e));
        ("rotation1", print_double (se_R1 e)); ("rotation2", print_double (se_R2 e)); ("rotation3", print_double (se_R3 e));
        ("rotation4", print_double (se_R4 e)); ("radLength", print_double (pl_Rad q))]) []]).

(** lines 26-164 toXML *)
Definition si_toXML (o : si_obj) : result xnode :=
  let (s, ps) := o in
  do ls <- rall (si_layer_elem s) (indices (si_getNLayers s));
  do es <- params_to_xml ps;
  Ok (XElem "detector" []
       ([XElem "siplanesID" (attrs_of [("ID", print_int (si_id s))]) [];
         XElem "siplanesType" (attrs_of [("type", si_type_text (si_type s))]) [];
         XElem "siplanesNumber" (attrs_of [("number", print_int (si_num s))]) []] ++
        (if (si_type s =? 1)%Z then [dut_elem s] else []) ++
        [XElem "layers" [] ls] ++ es)).

(** lines 203-235: <dut> *)
Definition read_dut (s : siplanes) (n : xnode) : result siplanes :=
  match FirstChildElement "dut" n with
  | None => UB
  | Some d =>
      let lad := FirstChildElement "dut_ladder" d in let sen := FirstChildElement "dut_sensitive" d in
      do lID <- int_of lad "ID"; do lX <- double_of lad "positionX"; do lY <- double_of lad "positionY"; do lZ <- double_of lad "positionZ";
      do lSX <- double_of lad "sizeX"; do lSY <- double_of lad "sizeY"; do lT <- double_of lad "thickness"; do lRad <- double_of lad "radLength";
      do sID <- int_of sen "ID"; do sX <- double_of sen "positionX"; do sY <- double_of sen "positionY"; do sZ <- double_of sen "positionZ";
      do sSX <- double_of sen "sizeX"; do sSY <- double_of sen "sizeY"; do sT <- double_of sen "thickness";
      do nX <- int_of sen "npixelX"; do nY <- int_of sen "npixelY"; do pX <- double_of sen "pitchX"; do pY <- double_of sen "pitchY";
      do res <- double_of sen "resolution"; do r1 <- opt_double_of sen "rotation1" "1.0"; do r2 <- opt_double_of sen "rotation2" "0.0";
      do r3 <- opt_double_of sen "rotation3" "0.0"; do r4 <- opt_double_of sen "rotation4" "1.0"; do sRad <- double_of sen "radLength";
      Ok (si_addDUT s lID lX lY lZ lSX lSY lT lRad sID sX sY sZ sSX sSY sT nX nY pX pY res r1 r2 r3 r4 sRad)
  end.

(** lines 244-285: one <layer> *)
Definition read_silayer (s : siplanes) (n : xnode) : result siplanes :=
  let lad := FirstChildElement "ladder" n in let sen := FirstChildElement "sensitive" n in
  do lID <- int_of lad "ID"; do lX <- double_of lad "positionX"; do lY <- double_of lad "positionY"; do lZ <- double_of lad "positionZ";
  do lA <- opt_double_of lad "rotationXY" "0."; do lB <- opt_double_of lad "rotationZX" "0."; do lC <- opt_double_of lad "rotationZY" "0.";
  do lSX <- double_of lad "sizeX"; do lSY <- double_of lad "sizeY"; do lT <- double_of lad "thickness"; do lRad <- double_of lad "radLength";
  do sID <- int_of sen "ID"; do sX <- double_of sen "positionX"; do sY <- double_of sen "positionY"; do sZ <- double_of sen "positionZ";
  do sA <- opt_double_of sen "rotationXY" "0."; do sB <- opt_double_of sen "rotationZX" "0."; do sC <- opt_double_of sen "rotationZY" "0.";
  do sSX <- double_of sen "sizeX"; do sSY <- double_of sen "sizeY"; do sT <- double_of sen "thickness";
  do nX <- int_of sen "npixelX"; do nY <- int_of sen "npixelY"; do pX <- double_of sen "pitchX"; do pY <- double_of sen "pitchY";
  do res <- double_of sen "resolution"; do resX <- opt_double_of sen "resolutionX" "-1.0"; do resY <- opt_double_of sen "resolutionY" " -1.0";
  do r1 <- opt_double_of sen "rotation1" "1.0"; do r2 <- opt_double_of sen "rotation2" "0.0";
  do r3 <- opt_double_of sen "rotation3" "0.0"; do r4 <- opt_double_of sen "rotation4" "1.0"; do sRad <- double_of sen "radLength";
  Ok (si_addLayer s (mkPl lID lX lY lZ lA lB lC lSX lSY lT lRad)
       (mkSe (mkPl sID sX sY sZ sA sB sC sSX sSY sT sRad) nX nY pX pY res
             (if Rltb resX 0 then res else resX) (if Rltb resY 0 then res else resY) r1 r2 r3 r4)).

(** lines 166-292 fromXML *)
Definition si_fromXML (n : xnode) : result si_obj :=
  do id <- int_of (FirstChildElement "siplanesID" n) "ID";
  do strType <- attr_of (FirstChildElement "siplanesType" n) "type";
  do type <- (if String.eqb strType "TelescopeWithDUT" then Ok 1%Z
              else if String.eqb strType "TelescopeWithoutDUT" then Ok 2%Z else Throw (EGear "type of SiPlanes"));
  do num <- int_of (FirstChildElement "siplanesNumber" n) "number";
  do s <- (if (type =? 1)%Z then read_dut (new_siplanes id type num) n else Ok (new_siplanes id type num));
  do ls <- iterate_of (FirstChildElement "layers" n) "layer";
  do s <- rfold read_silayer ls s;
  do ps <- params_from_xml n params_empty;
  Ok (s, ps).

(** ** TrackerPlanesParametersXML.cc *)
Definition tp_obj : Type := tplanes * params.

(** the ten numbers all plates have, in the order of lines 73-82 and 94-102 *)
Definition plate_attrs (p : plate) : list (string * string) :=
  [("positionX", print_double (pl_X p)); ("positionY", print_double (pl_Y p)); ("positionZ", print_double (pl_Z p));
   ("rotationXY", print_double (pl_RXY p)); ("rotationZX", print_double (pl_RZX p)); ("rotationZY", print_double (pl_RZY p));
   ("sizeX", print_double (pl_SX p)); ("sizeY", print_double (pl_SY p)); ("thickness", print_double (pl_T p))].
(** lines 70-82 *)
Definition ladder_elem (m : material) : xnode :=
  let p := ma_plate m in
  XElem "ladder" (attrs_of ([("ID", print_int (pl_ID p)); ("info", ma_info m)] ++ plate_attrs p ++ [("radLength", print_double (pl_Rad p))])) [].
(** lines 91-109 *)
Definition sensor_elem (e : sensor) : xnode :=
  let p := sr_plate e in
  XElem "sensitive" (attrs_of ([("ID", print_int (pl_ID p)); ("info", sr_info e)] ++ plate_attrs p ++
    [("npixelX", print_int (sr_NX e)); ("npixelY", print_int (sr_NY e)); ("pitchX", print_double (sr_PX e)); ("pitchY", print_double (sr_PY e));
     ("resolutionX", print_double (sr_ResX e)); ("resolutionY", print_double (sr_ResY e)); ("radLength", print_double (pl_Rad p))])) [].
(** lines 58-111: one <layer>; neither its ID nor its info is written *)
Definition tp_layer_elem (l : tplayer) : xnode :=
  XElem "layer" [] (map ladder_elem (tl_mat l) ++ map sensor_elem (tl_sen l)).

(** lines 28-122 toXML: the <layer> elements are put into <detector> (114), the element <layers> of
    line 55 is never inserted *)
Definition tp_toXML (o : tp_obj) : result xnode :=
  let (t, ps) := o in
  do es <- params_to_xml ps;
  Ok (XElem "detector" []
       ([XElem "LayoutID" (attrs_of [("ID", print_int (tp_id t))]) [];
         XElem "LayoutNumberOfLayers" (attrs_of [("number", print_int (tp_num t))]) []] ++
        map tp_layer_elem (tp_layers t) ++ es)).

(** what the readers of a ladder (159-170) and of a sensor (180-191) have in common *)
Definition read_plate (n : xnode) : result (plate * string) :=
  let d name default := atof (getOptionalXMLAttribute n name default) in
  do id <- get_int n "ID";
  Ok (mkPl id (d "positionX" "0.") (d "positionY" "0.") (d "positionZ" "0.") (d "rotationXY" "0.") (d "rotationZX" "0.") (d "rotationZY" "0.")
        (d "sizeX" "1.") (d "sizeY" "1.") (d "thickness" "0.") (d "radLength" "0."), c_str (getOptionalXMLAttribute n "info" "")).
(** lines 157-175; the defaults "0.0" of thickness and radLength are the same number *)
Definition read_ladder (l : tplayer) (n : xnode) : result tplayer :=
  do pi <- read_plate n; Ok (addMaterialLayer l (mkMa (fst pi) (snd pi))).
(** lines 178-202 *)
Definition read_sensor (l : tplayer) (n : xnode) : result tplayer :=
  let d name := atof (getOptionalXMLAttribute n name "0.") in
  do pi <- read_plate n;
  do nX <- atoi (getOptionalXMLAttribute n "npixelX" "1"); do nY <- atoi (getOptionalXMLAttribute n "npixelY" "1");
  Ok (addSensitiveLayer l (mkSr (fst pi) (snd pi) nX nY (d "pitchX") (d "pitchY") (d "resolutionX") (d "resolutionY"))).
(** lines 146-204: one <layer>; the output on std::cout is left out *)
Definition read_tplayer (t : tplanes) (n : xnode) : result tplanes :=
  do id <- get_int n "ID";
  let l0 := tl_setInfo (tl_setID new_tplayer id) (c_str (getOptionalXMLAttribute n "info" "")) in
  do l1 <- rfold read_ladder (IterateChildren "ladder" n) l0;
  do l2 <- rfold read_sensor (IterateChildren "sensitive" n) l1;
  Ok (tp_addLayer t l2).
(** lines 124-211 fromXML *)
Definition tp_fromXML (n : xnode) : result tp_obj :=
  do id <- int_of (FirstChildElement "LayoutID" n) "ID";
  do num <- int_of (FirstChildElement "LayoutNumberOfLayers" n) "number";
  do ls <- iterate_of (FirstChildElement "layers" n) "layer";
  do t <- rfold read_tplayer ls (new_tplanes id 0 num);
  do ps <- params_from_xml n params_empty;
  Ok (t, ps).

(** ** ConstantBFieldXML.cc *)
(** a constant field: its vector (ConstantBField.cc, at() returns it at every point) and its parameters *)
Definition field_obj : Type := vec * params.
(** lines 15-39 toXML *)
Definition field_toXML (o : field_obj) : result xnode :=
  let (b, ps) := o in
  do es <- params_to_xml ps;
  Ok (XElem "BField" (attrs_of [("type", "ConstantBField"); ("x", print_double (vx b)); ("y", print_double (vy b)); ("z", print_double (vz b))]) es).
(** lines 41-50 fromXML *)
Definition field_fromXML (n : xnode) : result field_obj :=
  do x <- get_double n "x"; do y <- get_double n "y"; do z <- get_double n "z";
  do ps <- params_from_xml n params_empty;
  Ok (mkVec x y z, ps).

(** ** SimpleMaterialXML.cc *)
Record smat := mkSM { sm_name : string; sm_A : R; sm_Z : R; sm_density : R; sm_radLength : R; sm_intLength : R }.
(** lines 15-29 toXML *)
Definition smat_toXML (m : smat) : result xnode :=
  Ok (XElem "material" (attrs_of [("name", sm_name m); ("A", print_double (sm_A m)); ("Z", print_double (sm_Z m));
        ("density", print_double (sm_density m)); ("radLength", print_double (sm_radLength m)); ("intLength", print_double (sm_intLength m))]) []).

(** the digits at the beginning of a text *)
Fixpoint digits_of (s : string) : string * string :=
  match s with
  | String c t => if isdigit c then let (d, r) := digits_of t in (String c d, r) else ("", s)
  | EmptyString => ("", "")
  end.
Definition sign_of (s : string) : string * string :=
  match s with
  | String c t => if ceqb c "-" || ceqb c "+" then (String c "", t) else ("", s)
  | EmptyString => ("", "")
  end.
(** operator>>(double&) of a stream holding [s] (num_get::do_get, C++ 22.4.2.1.2): after blanks the
    longest text that can be the beginning of a number is taken; if it is not a number, the value is 0.
    [None]: nothing but blanks is left, the variable is not changed. *)
Definition stream_double (s : string) : option (R * string) :=
  match skip_ws s with
  | "" => None
  | t =>
      let (sg, t1) := sign_of t in
      let (i, t2) := digits_of t1 in
      let '(dot, f, t3) := match t2 with
                           | String c u => if ceqb c "." then let (f, r) := digits_of u in (".", f, r) else ("", "", t2)
                           | EmptyString => ("", "", t2)
                           end in
      if String.eqb (i +++ f) "" then Some (0%R, t3)
      else match t3 with
           | String c u =>
               if ceqb c "e" || ceqb c "E" then
                 let (es, t4) := sign_of u in
                 let (e, t5) := digits_of t4 in
                 if String.eqb e "" then Some (0%R, t5)
                 else Some (atof (sg +++ i +++ dot +++ f +++ String c (es +++ e)), t5)
               else Some (atof (sg +++ i +++ dot +++ f), t3)
           | EmptyString => Some (atof (sg +++ i +++ dot +++ f), t3)
           end
  end.

(** lines 44-57: [ss << text; ss >> dummy; ss.clear()]: the state is the text left in the stream and
    the value of dummy, which is not initialised at first *)
Definition stream_step (st : string * option R) (text : string) : result (R * (string * option R)) :=
  let buf := fst st +++ text in
  match stream_double buf with
  | Some (v, rest) => Ok (v, (rest, Some v))
  | None => match snd st with Some v => Ok (v, ("", Some v)) | None => UB end
  end.
(** lines 32-59 fromXML *)
Definition smat_fromXML (n : xnode) : result smat :=
  do name <- getXMLAttribute n "name";
  do a <- getXMLAttribute n "A"; do r1 <- stream_step ("", None) a;
  do z <- getXMLAttribute n "Z"; do r2 <- stream_step (snd r1) z;
  do d <- getXMLAttribute n "density"; do r3 <- stream_step (snd r2) d;
  do rl <- getXMLAttribute n "radLength"; do r4 <- stream_step (snd r3) rl;
  do il <- getXMLAttribute n "intLength"; do r5 <- stream_step (snd r4) il;
  Ok (mkSM name (fst r1) (fst r2) (fst r3) (fst r4) (fst r5)).
