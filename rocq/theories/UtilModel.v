(** Model of the printing operators of src/gearimpl/Util.cc and of the printing functions of
    include/gear/gearimpl/TrackerPlanesLayerLayoutImpl.h 424-522.

    Simplifications: what a stream has been given is a list of texts, ints and doubles, the numbers with
    the format the stream had then (how operator<< turns an int or a double into characters is left to
    the standard library; what sprintf does is modelled); std::endl is a line feed; field widths, fill and
    locale are those of a new stream; the stream does not fail.  Doubles are real numbers, so that
    infinities, NaN and the sign of zero are left out.  The extent a calorimeter caches when it is asked for
    it is not kept: every call works it out again. *)
From Coq Require Import ZArith List String Ascii Bool Reals.
From Flocq Require Import Core.
From Verif Require Import Base RBase XmlModel NumModel VecModel ParamsModel CaloModel ZpModel FtdModel TrkModel RectModel FpsModel FpaModel VdModel
  TpcModuleModel TpcModel CaloXmlModel TrkXmlModel TpcXmlModel GearXmlModel.
Import ListNotations.
Local Open Scope string_scope.

(** ** Streams *)
(** std::ios_base::floatfield *)
Inductive floatfield := General | Fixed | Scientific.
(** precision(), showpos and basefield of a stream; the standard's defaults are a new stream's *)
Record format := mkFm { fm_float : floatfield; fm_prec : Z; fm_showpos : bool; fm_base : Z }.
Definition default_format : format := mkFm General 6 false 10.
Inductive token := Text (s : string) | Int (f : format) (z : Z) | Double (f : format) (x : R).
Record stream := mkSt { st_out : list token; st_fm : format }.

(** a piece of code that prints: the stream also exists after an exception *)
Definition printer : Type := stream -> sres stream unit.
Definition nothing : printer := fun s => SOk s tt.
Definition then_ (p q : printer) : printer :=
  fun s => match p s with SOk s' _ => q s' | SThrow s' e => SThrow s' e | SUB => SUB end.
Infix ";;" := then_ (at level 60, right associativity).
Definition emit (t : format -> token) : printer := fun s => SOk (mkSt (st_out s ++ [t (st_fm s)]) (st_fm s)) tt.
(** operator<< for texts, ints and doubles *)
Definition text (s : string) : printer := emit (fun _ => Text s).
Definition int (z : Z) : printer := emit (fun f => Int f z).
Definition double (x : R) : printer := emit (fun f => Double f x).
Definition lf : string := String (chr 10) "".
Definition tab : string := String (chr 9) "".
Definition endl : printer := text lf.
(** manipulators *)
Definition manip (g : format -> format) : printer := fun s => SOk (mkSt (st_out s) (g (st_fm s))) tt.
Definition floatf (x : floatfield) : printer := manip (fun f => mkFm x (fm_prec f) (fm_showpos f) (fm_base f)).
Definition setprecision (p : Z) : printer := manip (fun f => mkFm (fm_float f) p (fm_showpos f) (fm_base f)).
Definition showpos (b : bool) : printer := manip (fun f => mkFm (fm_float f) (fm_prec f) b (fm_base f)).
Definition dec_base : printer := manip (fun f => mkFm (fm_float f) (fm_prec f) (fm_showpos f) 10).
(** the value of a getter *)
Definition have {A} (r : result A) (k : A -> printer) : printer :=
  fun s => match r with Ok a => k a s | Throw e => SThrow s e | UB => SUB end.
(** [s << head << getter()]: whether the getter is called before [head] is printed is left open by C++
    before C++17; [first] says which (that it is called between two pieces of [head], which the standard
    also allows, is left out) *)
Definition after_head {A} (first : bool) (head : printer) (r : result A) (k : A -> printer) : printer :=
  if first then have r (fun a => head ;; k a) else head ;; have r k.
(** [try{ p } catch(UnknownParameterException &e){ q }] *)
Definition catch_unknown (p q : printer) : printer :=
  fun s => match p s with SThrow s' (EUnknownParameter _) => q s' | r => r end.
Fixpoint all_of {A} (f : A -> printer) (l : list A) : printer :=
  match l with [] => nothing | x :: t => f x ;; all_of f t end.

(** ** sprintf *)
Fixpoint spaces (n : nat) : string := match n with O => "" | S k => String " "%char (spaces k) end.
(** [%ws]: at least [w] characters, right justified *)
Definition padded (w : nat) (s : string) : string := spaces (w - String.length s) +++ s.
(** [%w.pf] without the width: the nearest decimal number with [p] decimals, ties to even; a negative
    number has its sign even if all digits are 0 *)
Definition fixed_text (p : nat) (x : R) : string :=
  let m := ZnearestE (Rabs x * IZR (10 ^ Z.of_nat p)) in
  (if Rltb x 0 then "-" else "") +++ print_uint (m / 10 ^ Z.of_nat p) +++
  (match p with O => "" | _ => "." +++ dec p m end).
(** what a conversion in a format string prints *)
Inductive conv := L (s : string) | D (w : nat) (z : Z) | F (w p : nat) (x : R) | S_ (w : nat) (s : string).
Definition conv_text (c : conv) : string :=
  match c with
  | L s => s
  | D w z => padded w (print_int z)
  | F w p x => padded w (fixed_text p x)
  | S_ w s => padded w (c_str s)
  end.
Fixpoint line_text (l : list conv) : string := match l with [] => "" | c :: t => conv_text c +++ line_text t end.
(** [char buffer[1024]; sprintf(buffer, ...); s << buffer]: a line with its final 0 that is longer than the
    buffer is written past its end *)
Definition sprintf_line (l : list conv) : printer :=
  fun s => if (String.length (line_text l) <? 1024)%nat then text (line_text l) s else SUB.

(** ** operator<< for GearParameters, 237-303 *)
(** one of the six loops, 239-244 and its like: the keys of that kind, each with its value *)
Definition print_named {V} (label : string) (keys : list string) (get : string -> result V) (value : V -> printer) : printer :=
  all_of (fun k => endl ;; text label ;; text k ;; text (" " +++ tab +++ " ") ;; have (get k) value ;; endl) keys.
(** 262-270 and its like *)
Definition commas {V} (one : V -> printer) (v : list V) : printer := all_of (fun x => one x ;; text " , ") v.
(** the operator, 237-303 *)
Definition print_params (p : params) : printer :=
  print_named "    [int]       " (sm_keys (p_int p)) (getIntVal p) int ;;                       (* 239-244 *)
  print_named "    [double]    " (sm_keys (p_double p)) (getDoubleVal p) double ;;              (* 246-251 *)
  print_named "    [string]    " (sm_keys (p_string p)) (getStringVal p) text ;;                (* 252-257 *)
  print_named "    [IntVec]    " (sm_keys (p_intVec p)) (getIntVals p) (commas int) ;;          (* 259-271 *)
  print_named "    [DoubleVec] " (sm_keys (p_doubleVec p)) (getDoubleVals p) (commas double) ;; (* 274-286 *)
  print_named "    [StringVec] " (sm_keys (p_stringVec p)) (getStringVals p) (commas text).     (* 288-300 *)

(** ** operator<< for SimpleMaterial, 220-235 *)
(** the operator, 220-235 *)
Definition print_material (m : smat) : printer := fun s =>
  let old_precision := fm_prec (st_fm s) in
  (text "    " ;; text (sm_name m) ;;
   showpos true ;; floatf Scientific ;; setprecision 8 ;;
   text ", A= " ;; double (sm_A m) ;; text ", Z= " ;; double (sm_Z m) ;;
   text ", density [kg/m3]= " ;; double (sm_density m) ;;
   text ", radiation length [mm]= " ;; double (sm_radLength m) ;;
   text ", interaction length [mm]= " ;; double (sm_intLength m) ;;
   showpos false ;; floatf Fixed ;; setprecision old_precision ;; dec_base ;; endl) s.

(** ** operator<< for BField, 305-318; the field is constant (ConstantBField.h) *)
(** the operator, 305-318 *)
Definition print_field (o : field_obj) : printer :=
  let (b, ps) := o in
  endl ;; text "   -----------   BField   ------- " ;; endl ;; endl ;;
  text "       field vector at origin :   Bx = " ;; double (vx b) ;; text " , By = " ;; double (vy b) ;;
  text " , Bz = " ;; double (vz b) ;; text " [Tesla] " ;; endl ;; print_params ps.

(** ** operator<< for TPCModule, 354-394 *)
(** 334-340 and 367-371 *)
Definition type_text (t : Z) : string :=
  if (t =? CARTESIAN)%Z then "cartesian" else if (t =? POLAR)%Z then "polar" else "unknown".
(** getNPads and getNRows of the layout, which the module forwards (TPCModuleImpl.h 136, 140) *)
Definition lay_nPads (p : layout2d) : Z :=
  match p with LRect l => RectModel.getNPads l | LFps l => fps_getNPads l | LFpa l => fpa_getNPads l | LVd l => vd_getNPads l end.
Definition lay_nRows (p : layout2d) : Z :=
  match p with LRect l => RectModel.getNRows l | LFps l => fps_getNRows l | LFpa l => fpa_getNRows l | LVd l => vd_getNRows l end.
(** the operator, 354-394 *)
Definition print_module (ord : string -> bool) (m : module) (ps : params) : printer :=
  endl ;; text "     -----------   TPCModule  ------- " ;; endl ;; print_params ps ;;
  endl ;; text "  Readout frequency :   " ;; double (TpcModuleModel.getReadoutFrequency m) ;;
  endl ;; text "  Type :                 " ;; text (type_text (lay_type (m_layout m))) ;;
  endl ;; text "  Number of pads :      " ;; int (lay_nPads (m_layout m)) ;;
  endl ;; text "  Number of Rows :      " ;; int (lay_nRows (m_layout m)) ;;
  endl ;; text "  Offset :              " ;; double (fst (getOffset m)) ;; text "  ;  " ;; double (snd (getOffset m)) ;;
  (match getZPosition m with                                                                    (* 375-382 *)
   | Some z => endl ;; text "  zPosition :           " ;; double z
   | None => (if ord "zPosition" then nothing else endl ;; text "  zPosition :           ") ;; text " no z Position set "
   end) ;;
  endl ;; text "  Angle :               " ;; double (getAngle m) ;; endl ;;
  text "         extent (global):    [" ;; double (e0 (module_getPlaneExtent m)) ;; text "," ;; double (e1 (module_getPlaneExtent m)) ;;
  text "," ;; double (e2 (module_getPlaneExtent m)) ;; text "," ;; double (e3 (module_getPlaneExtent m)) ;; text "]" ;; endl ;;
  endl ;; endl.

(** ** operator<< for TPCParameters, 323-352 *)
(** the operator, 323-352 *)
Definition print_tpc (ord : string -> bool) (o : tpc_obj) : printer :=
  let h := w_heap (to_world o) in
  let t := w_tpc (to_world o) in
  endl ;; text "   -----------   TPCParameters  ------- " ;; endl ;; print_params (to_par o) ;;
  endl ;; text "  maxDriftLength :      " ;; double (getMaxDriftLength t) ;;
  endl ;; text "  coordinateType :      " ;; text (type_text (getCoordinateType t)) ;;
  endl ;; text "  Number of modules :   " ;; int (getNModules t) ;; endl ;;
  all_of (fun a => print_module ord (h a) (to_mpar o a)) (getModules t) ;;
  endl ;; endl.

(** ** operator<< for CalorimeterParameters, 396-461 *)
(** the loop 436-457 over the layers, with the thickness and the absorber thickness of the layer before *)
Fixpoint print_layers (v : layout) (n : nat) (i : Z) (lastThickness lastAbsorber : R) : printer :=
  match n with
  | O => nothing
  | S k =>
      have (getThickness v i) (fun t => have (getAbsorberThickness v i) (fun a =>
      (if (negb (Reqb t lastThickness) || negb (Reqb a lastAbsorber)) || (i =? getNLayers v - 1)%Z then
         have (getDistance v i) (fun d => have (getCellSize0 v i) (fun c0 => have (getCellSize1 v i) (fun c1 =>
         text "       id: " ;; int i ;; text " thickness: " ;; double t ;; text " absorber thickness: " ;; double a ;;
         text " distance: " ;; double d ;; text " cellsize-0: " ;; double c0 ;; text " cellsize-1: " ;; double c1 ;; endl)))
       else nothing) ;;
      print_layers v k (i + 1) t a))
  end.
(** the operator, 396-461 *)
Definition print_calo (o : calo_obj) : printer :=
  let (c, ps) := o in
  print_params ps ;;
  endl ;; text (match getLayoutType c with BARREL => "  calorimeter type:  barrel  " | ENDCAP => "  calorimeter type:  endcap  " end) ;; endl ;;
  text "   symmetry order:  " ;; int (getSymmetryOrder c) ;; endl ;;
  text "   phi0:            " ;; double (getPhi0 c) ;; endl ;;
  fun s => match getExtent c with
  | SOk _ (rMin :: rMax :: zMin :: zMax :: _) =>
     (endl ;; text "   dimensions :  " ;; endl ;;
      text "         rMin:      " ;; double rMin ;; endl ;; text "         rMax:      " ;; double rMax ;; endl ;;
      text "         zMin:      " ;; double zMin ;; endl ;; text "         zMax:      " ;; double zMax ;; endl ;; endl ;;
      endl ;; text "   layers    :    #total " ;; int (getNLayers (getLayerLayout c)) ;; endl ;;
      print_layers (getLayerLayout c) (Z.to_nat (getNLayers (getLayerLayout c))) 0 0 0) s
  | SThrow _ e => SThrow s e
  | _ => SUB
  end.

(** ** operator<< for ZPlanarParameters, 464-543 *)
(** the loops from 0 to getNLayers(), 518, 577, 659 *)
Definition indices (n : Z) : list Z := map Z.of_nat (seq 0 (Z.to_nat n)).
(** 519-535 *)
Definition zp_line (p : zplanar) (i : Z) : printer :=
  have (zp_getNLadders p i) (fun n =>
  have (zp_getLadderDistance p i) (fun ld => have (zp_getLadderWidth p i) (fun lw =>
  have (zp_getLadderLength p i) (fun ll => have (zp_getLadderThickness p i) (fun lt =>
  have (zp_getSensitiveDistance p i) (fun sd => have (zp_getSensitiveWidth p i) (fun sw =>
  have (zp_getSensitiveLength p i) (fun sl => have (zp_getSensitiveThickness p i) (fun st =>
  sprintf_line [L "  | "; D 3 n; L "  |  "; F 4 2 ld; L "  |  "; F 4 2 lw; L "  |  "; F 4 2 ll; L "  |  "; F 4 2 lt; L "  |  ";
                F 4 2 sd; L "  |  "; F 4 2 sw; L "  |  "; F 4 2 sl; L "  |  "; F 4 2 st; L "  |"; L lf]))))))))).
(** the operator, 464-543 *)
Definition print_zp (o : zp_obj) : printer :=
  let (p, ps) := o in
  text "     --- ZPlanarParameters: " ;; endl ;; print_params ps ;;
  endl ;; text "  type : " ;;
  text (if (z_type p =? 1)%Z then " CCD " else if (z_type p =? 2)%Z then " CMOS " else if (z_type p =? 3)%Z then " HYBRID " else " unknown ") ;; endl ;;
  text " Shell innerR : " ;; double (z_rIn p) ;; text " outerR : " ;; double (z_rOut p) ;; endl ;;
  text "       length : " ;; double (z_half p) ;; text " gap " ;; double (z_gap p) ;; endl ;;
  text " Layers : " ;; int (zp_getNLayers p) ;; endl ;; endl ;;
  text " layer parameters (note: ladder length (l) are half lengths ! )" ;; endl ;;
  text ("  |------------------------------------------------------------------------------------|" +++ lf) ;;
  text ("  |      |       ladder:                        |       sensitive part:                |" +++ lf) ;;
  text ("  |  #   |    d    |    w    |    l    |   t    |    d    |    w    |    l    |    t   | " +++ lf) ;;
  text ("  |------------------------------------------------------------------------------------|" +++ lf) ;;
  all_of (zp_line p) (indices (zp_getNLayers p)) ;;
  text ("  |------------------------------------------------------------------------------------|" +++ lf).

(** ** operator<< for FTDParameters, 545-600 *)
(** 578-594 *)
Definition ftd_line (f : ftd) (i : Z) : printer :=
  have (ftd_getNPetals f i) (fun n =>
  have (ftd_getSupportLengthMin f i) (fun lm => have (ftd_getSupportLengthMax f i) (fun lM =>
  have (ftd_getSupportWidth f i) (fun lw => have (ftd_getSupportThickness f i) (fun lt =>
  have (ftd_getSensitiveLengthMin f i) (fun sm => have (ftd_getSensitiveLengthMax f i) (fun sM =>
  have (ftd_getSensitiveWidth f i) (fun sw => have (ftd_getSensitiveThickness f i) (fun st =>
  sprintf_line [L "  | "; D 3 n; L "  |  "; F 4 2 lm; L "  |  "; F 4 2 lM; L "  |  "; F 4 2 lw; L "  |  "; F 4 2 lt; L "  |  ";
                F 4 2 sm; L "  |  "; F 4 2 sM; L "  |  "; F 4 2 sw; L "  |  "; F 4 2 st; L "  |"; L lf]))))))))).
(** the operator, 545-600 *)
Definition print_ftd (o : ftd_obj) : printer :=
  let (f, ps) := o in
  endl ;; text "   -----------   FTDParameters  ------- " ;; endl ;; print_params ps ;;
  text " Layers : " ;; int (ftd_getNLayers f) ;; endl ;; endl ;;
  text " layer parameters (note: ladder length (l) are half lengths ! )" ;; endl ;;
  text ("  |------------------------------------------------------------------------------------|" +++ lf) ;;
  text ("  |      |         support:                      |       sensitive part:                |" +++ lf) ;;
  text ("  |  #   |    x    |    X    |    y    |   t    |    x    |    X    |    y    |    t   | " +++ lf) ;;
  text ("  |------------------------------------------------------------------------------------|" +++ lf) ;;
  all_of (ftd_line f) (indices (ftd_getNLayers f)) ;;
  text ("  |------------------------------------------------------------------------------------|" +++ lf).

(** ** operator<< for SiPlanesParameters, 602-752 *)
(** 660-693 *)
Definition si_line (s : siplanes) (i : Z) : printer :=
  have (si_getID s i) (fun lid =>
  have (si_getLayer FX s i) (fun lx => have (si_getLayer FY s i) (fun ly => have (si_getLayer FZ s i) (fun lz =>
  have (si_getLayer FRXY s i) (fun lxy => have (si_getLayer FRZX s i) (fun lzx => have (si_getLayer FRZY s i) (fun lzy =>
  have (si_getLayer FSX s i) (fun lsx => have (si_getLayer FSY s i) (fun lsy => have (si_getLayer FT s i) (fun lt =>
  have (si_getSensitiveZ SID s i) (fun sid =>
  have (si_getSensitive (SPlate FX) s i) (fun sx => have (si_getSensitive (SPlate FY) s i) (fun sy =>
  have (si_getSensitive (SPlate FZ) s i) (fun sz => have (si_getSensitive (SPlate FSX) s i) (fun ssx =>
  have (si_getSensitive (SPlate FSY) s i) (fun ssy => have (si_getSensitive (SPlate FT) s i) (fun st =>
  have (si_getSensitiveZ SNX s i) (fun nx => have (si_getSensitiveZ SNY s i) (fun ny =>
  have (si_getSensitive SPX s i) (fun px => have (si_getSensitive SPY s i) (fun py => have (si_getSensitive SRes s i) (fun re =>
  have (si_getSensitive SR1 s i) (fun r1 => have (si_getSensitive SR2 s i) (fun r2 =>
  have (si_getSensitive SR3 s i) (fun r3 => have (si_getSensitive SR4 s i) (fun r4 =>
  sprintf_line
   [L "  |"; D 5 lid; L "|"; F 5 2 lx; L "|"; F 5 2 ly; L "|"; F 7 2 lz; L "|"; F 5 2 lxy; L "|"; F 5 2 lzx; L "|"; F 5 2 lzy; L "|";
    F 6 2 lsx; L "|"; F 6 2 lsy; L "|"; F 6 3 lt; L "|"; D 5 sid; L "|"; F 5 2 sx; L "|"; F 5 2 sy; L "|"; F 7 2 sz; L "|";
    F 5 2 ssx; L "|"; F 5 2 ssy; L "|"; F 6 3 st; L "|"; D 5 nx; L "|"; D 5 ny; L "|"; F 6 2 px; L "|"; F 6 2 py; L "|"; F 6 4 re; L "|";
    F 5 2 r1; L "|"; F 5 2 r2; L "|"; F 5 2 r3; L "|"; F 5 2 r4; L "|"; L lf])))))))))))))))))))))))))).
(** 718-743 *)
Definition dut_line (s : siplanes) : printer :=
  let l := si_dl s in let e := si_ds s in let q := se_plate e in
  sprintf_line
   [L "  |"; D 5 (pl_ID l); L "|"; F 5 2 (pl_X l); L "|"; F 5 2 (pl_Y l); L "|"; F 7 2 (pl_Z l); L "|"; F 6 2 (pl_SX l); L "|";
    F 6 2 (pl_SY l); L "|"; F 6 3 (pl_T l); L "|"; D 5 (pl_ID q); L "|"; F 5 2 (pl_X q); L "|"; F 5 2 (pl_Y q); L "|"; F 7 2 (pl_Z q); L "|";
    F 5 2 (pl_SX q); L "|"; F 5 2 (pl_SY q); L "|"; F 6 3 (pl_T q); L "|"; D 5 (se_NX e); L "|"; D 5 (se_NY e); L "|";
    F 6 2 (se_PX e); L "|"; F 6 2 (se_PY e); L "|"; F 5 2 (se_R1 e); L "|"; F 5 2 (se_R2 e); L "|"; F 5 2 (se_R3 e); L "|";
    F 5 2 (se_R4 e); L "|"; L lf].
(** 643-647 and its like *)
Definition si_dashes : string := "  |----------------------------------------------------------------------------------------------------------------------------------------------------------------------|" +++ lf.
(** 709-712 and its like *)
Definition dut_dashes : string := "  |----------------------------------------------------------------------------------------------------------------------------------------------|" +++ lf.
(** the operator, 602-752 *)
Definition print_si (o : si_obj) : printer :=
  let (s, ps) := o in
  endl ;; text "   -----------   SiPlanesParameters  ------- " ;; endl ;; print_params ps ;;
  endl ;; text " Setup ID : " ;; int (si_id s) ;; endl ;;
  text " Telescope type : " ;;
  text (if (si_type s =? 1)%Z then " TelescopeWithDUT" else if (si_type s =? 2)%Z then " TelescopeWithoutDUT " else " unknown ") ;; endl ;;
  text " Number of telescope planes : " ;; int (si_num s) ;; endl ;;
  text " Number of layers : " ;; int (si_getNLayers s) ;; endl ;; endl ;;
  text " layer parameters : " ;; endl ;;
  text si_dashes ;;
  text ("  |              ladder:                                           |                    sensitive part:                                                                  |" +++ lf) ;;
  text ("  |  ID | pozX| pozY|  pozZ |rotXY|rotZX|rotZY| sizeX| sizeY| Thick|  ID | pozX| pozY|  pozZ |sizeX|sizeY| Thick|NpixX|NpixY|PitchX|PitchY| Resol| Rot1| Rot2| Rot3| Rot4| " +++ lf) ;;
  text si_dashes ;;
  all_of (si_line s) (indices (si_getNLayers s)) ;;
  text si_dashes ;;
  (if (si_type s =? 1)%Z then                                                                   (* 700-748 *)
     text " DUT parameters : " ;; endl ;; text si_dashes ;;
     text ("  |              ladder:                          |                    sensitive part:                                                           |" +++ lf) ;;
     text dut_dashes ;;
     text ("  |  ID |  pozX| pozY|  pozZ | sizeX| sizeY| Thick|  ID | pozX| pozY|  pozZ |sizeX|sizeY| Thick|NpixX|NpixY|PitchX|PitchY| Rot1| Rot2| Rot3| Rot4| " +++ lf) ;;
     text dut_dashes ;; dut_line s ;; text dut_dashes
   else nothing).

(** ** operator<< for TrackerPlanesParameters, 754-776, and TrackerPlanesLayerLayoutImpl.h *)
(** [n] empty columns of width [w] *)
Fixpoint blanks (w n : nat) : list conv := match n with O => [] | S k => L " " :: S_ w "" :: blanks w k end.
(** the ten members both kinds of parts have, 468-478 and 488-498 *)
Definition plate_columns (p : plate) : list conv :=
  [L " "; F 5 0 (pl_X p); L " "; F 5 0 (pl_Y p); L " "; F 5 0 (pl_Z p); L " "; F 5 0 (pl_RXY p); L " "; F 5 0 (pl_RZX p); L " "; F 5 0 (pl_RZY p);
   L " "; F 5 2 (pl_SX p); L " "; F 5 2 (pl_SY p); L " "; F 5 2 (pl_T p); L " "; F 5 2 (pl_Rad p)].
(** the last six columns of a row without a sensor, 455, 480 *)
Definition no_pixels : list conv := [L "`"; S_ 5 ""; L " "; S_ 5 "" ; L " "; S_ 6 ""; L " "; S_ 6 ""; L " "; S_ 6 ""; L " "; S_ 6 ""; L "|"; L lf].
(** the columns of a part that is not in the row, 453-455 *)
Definition no_plate : list conv := [S_ 3 ""; L " "; S_ 14 ""] ++ blanks 5 10.
(** 451-456 *)
Definition layer_row (l : tplayer) : printer :=
  sprintf_line ([L "|"; D 3 (tl_ID l); L " "; S_ 14 (tl_info l); L "|"] ++ no_plate ++ [L "|"] ++ no_plate ++ no_pixels).
(** 463-481 *)
Definition material_row (m : material) : printer :=
  let p := ma_plate m in
  sprintf_line ([L "|"; S_ 3 ""; L " "; S_ 14 ""; L "|"; D 3 (pl_ID p); L " "; S_ 14 (ma_info m)] ++ plate_columns p ++
                [L "|"] ++ no_plate ++ no_pixels).
(** 483-508 *)
Definition sensor_row (e : sensor) : printer :=
  let p := sr_plate e in
  sprintf_line ([L "|"; S_ 3 ""; L " "; S_ 14 ""; L "|"] ++ no_plate ++ [L "|"; D 3 (pl_ID p); L " "; S_ 14 (sr_info e)] ++ plate_columns p ++
                [L "`"; D 5 (sr_NX e); L " "; D 5 (sr_NY e); L " "; F 5 4 (sr_PX e); L " "; F 5 4 (sr_PY e); L " ";
                 F 5 4 (sr_ResX e); L " "; F 5 4 (sr_ResY e); L "|"; L lf]).
(** 510, 518 *)
Definition tp_dashes : string := "|--------------------------------------------------------------------------------------------------------------------------------------------------------------------------------------------------------------------------|" +++ lf.
(** 429-433, 438 *)
Definition tp_bars : string := "|------------------|------------------------------------------------------------------------------|----------------------------------------------------------------------------------------------------------------------|" +++ lf.
(** PrintHeader, 424-440 *)
Definition PrintHeader (t : tplanes) : printer :=
  text " Number of layers : " ;; int (tp_getNLayers t) ;; endl ;; endl ;; text " layer parameters : " ;; endl ;;
  text tp_bars ;;
  text ("| layer:           |                 ladder/scattering only                                       |          sensitive /       scattering part                                   `      measurement part                 |" +++ lf) ;;
  text ("| ID      info     | ID      info       pozX  pozY  pozZ rotXY rotZX rotZY  sizX  sizY Thick   X  | ID     info        pozX  pozY  pozZ rotXY rotZX rotZY  sizX  sizY Thick   X  `  NX    NY  PitchX PitchY   ResX   RexY| " +++ lf) ;;
  text tp_bars.
(** PrintLayers, 443-512 *)
Definition PrintLayers (t : tplanes) : printer :=
  all_of (fun l => layer_row l ;; all_of material_row (tl_mat l) ;; all_of sensor_row (tl_sen l)) (tp_layers t) ;; text tp_dashes.
(** PrintFooter, 515-522 *)
Definition PrintFooter : printer := text tp_dashes.
(** the operator, 754-776 *)
Definition print_tp (o : tp_obj) : printer :=
  let (t, ps) := o in
  endl ;; text "   -----------   TrackerPlanesParameters  ------- " ;; endl ;; print_params ps ;;
  endl ;; text " Setup ID : " ;; int (tp_id t) ;; endl ;;
  text " Number of telescope planes : " ;; int (tp_num t) ;; endl ;;
  PrintHeader t ;; PrintLayers t ;; PrintFooter.

(** ** operator<< for GearMgr, 18-216 *)
(** the getters of GearMgrImpl.cc 169-176, 206-384: what is not there is an UnknownParameterException *)
Definition present {O} (name : string) (o : option O) : result O :=
  match o with Some x => Ok x | None => Throw (EUnknownParameter name) end.
Definition detector_name (g : content) : result string :=
  if String.eqb (g_name g) "" then Throw (EUnknownParameter "No DetectorName set ") else Ok (g_name g).
(** 64-68 and its like *)
Definition part {O} (first : bool) (heading : string) (o : option O) (print : O -> printer) : printer :=
  catch_unknown (after_head first (text heading ;; endl) (present heading o) (fun x => print x ;; endl)) nothing.
(** 70-73 and its like *)
Definition bare {O} (o : option O) (print : O -> printer) : printer :=
  catch_unknown (have (present "" o) (fun x => print x ;; endl)) nothing.
(** 26-43 *)
Definition print_name (ord : string -> bool) (g : content) : printer :=
  catch_unknown
    (after_head (ord "name") (text "   ----  DetectorName   ----   " ;; endl ;; endl ;; text "         ") (detector_name g)
       (fun n => text n ;; endl ;; endl))
    (text "     WARNING:  NOT FOUND  !     " ;; endl ;; text "   please add  it to the <gear> element of your gear file: " ;; endl ;; endl ;;
     text "   <gear> " ;; endl ;; text "      <global detectorName=""MyDetectorModle007"" /> " ;; endl ;;
     text "      <detectors> ... <detectors/>" ;; endl ;; text "   <gear/> " ;; endl ;; endl).
(** 46-61 *)
Definition print_bfield (g : content) : printer :=
  catch_unknown (have (present "BField" (g_field g)) (fun f => print_field f ;; endl))
    (text "   ----  BField   ----   " ;; endl ;; text "     WARNING:  NOT FOUND  !     " ;; endl ;;
     text "   please add  it to the <gear> element of your gear file, e.g.: " ;; endl ;; text "   <gear> " ;; endl ;;
     text "      <BField type=""ConstantBField"" x=""0.0"" y=""0.0"" z=""4.0""/> " ;; endl ;;
     text "      <detectors> ... <detectors/>" ;; endl ;; text "   <gear/> " ;; endl ;; endl).
(** 64, 75, 82 *)
Definition zp_heading (s : zp_slot) : string :=
  match s with VXD => "   ----  VXD    ---- " | SIT => "   ----  SIT    ---- " | SET => "   ----  SET    ---- " end.
(** 106-164: the headings *)
Definition calo_heading (s : calo_slot) : string :=
  match s with
  | EcalBarrel => "   ----  Ecal barrel    ---- " | EcalEndcap => "   ----  Ecal endcap   ---- " | EcalPlug => "   ----  Ecal plug   ---- "
  | YokeBarrel => "   ----  Yoke barrel    ---- " | YokeEndcap => "   ----  Yoke endcap   ---- " | YokePlug => "   ----  Yoke plug   ---- "
  | HcalBarrel => "   ----  Hcal barrel    ---- " | HcalEndcap => "   ----  Hcal endcap    ---- " | HcalRing => "   ----  Hcal ring    ---- "
  | Lcal => "   ----  Lcal   ---- " | LHcal => "   ----  LHcal   ---- " | BeamCal => "   ----  BeamCal   ---- "
  end.
(** 64-68, 75-86 *)
Definition zp_part (ord : string -> bool) (g : content) (s : zp_slot) : printer := part (ord (zp_heading s)) (zp_heading s) (g_zp g s) print_zp.
(** 106-164 *)
Definition calo_part (ord : string -> bool) (g : content) (s : calo_slot) : printer := part (ord (calo_heading s)) (calo_heading s) (g_calo g s) print_calo.
(** getGearParameters, GearMgrImpl.cc 179-189; getSimpleMaterial 591-604 *)
Definition look_up {V} (k : string) (m : smap V) : result V := lookup_or_throw k m.
(** 195, 214 *)
Definition rule : string := " ------------------------------------------------------------------ ".
(** the operator, 18-216 *)
Definition print_mgr (ord : string -> bool) (g : content) : printer :=
  text " ----------------------------------------------------- " ;; endl ;;
  text "              GearMgr :                                " ;; endl ;;
  text " ----------------------------------------------------- " ;; endl ;;
  print_name ord g ;; print_bfield g ;;                                                         (* 26-61 *)
  zp_part ord g VXD ;; bare (g_ftd g) print_ftd ;; zp_part ord g SIT ;; zp_part ord g SET ;;     (* 64-86 *)
  bare (g_zp g SIT) print_zp ;; bare (g_zp g SET) print_zp ;;                                    (* 89-98 *)
  bare (g_tpc g) (print_tpc ord) ;;                                                              (* 100-103 *)
  calo_part ord g EcalBarrel ;; calo_part ord g EcalEndcap ;; calo_part ord g EcalPlug ;;        (* 106-164 *)
  calo_part ord g YokeBarrel ;; calo_part ord g YokeEndcap ;; calo_part ord g YokePlug ;;
  calo_part ord g HcalBarrel ;; calo_part ord g HcalEndcap ;; calo_part ord g HcalRing ;;
  calo_part ord g Lcal ;; calo_part ord g LHcal ;; calo_part ord g BeamCal ;;
  part (ord "TrackerPlanes") "   ----  TrackerPlanes ---- " (g_tp g) print_tp ;;                 (* 166-169 *)
  part (ord "SiPlanes") "   ----  SiPlanes ---- " (g_si g) print_si ;;                           (* 171-174 *)
  endl ;; text "   parameter sections (detectors) :  " ;; endl ;;                                (* 178-193 *)
  all_of (fun k => endl ;; text "   ------  name : " ;; text k ;; text " ------- " ;; endl ;;
                   have (look_up k (g_generic g)) (fun p => print_params p ;; endl)) (sm_keys (g_generic g)) ;;
  text rule ;; endl ;; text "   materials :  " ;; endl ;;                                        (* 197-212 *)
  all_of (fun k => have (look_up k (g_mat g)) (fun m => print_material m ;; endl)) (sm_keys (g_mat g)) ;;
  text rule ;; endl.
