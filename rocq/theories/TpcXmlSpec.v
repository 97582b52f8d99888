(** What becomes of a TPC that is saved and loaded. *)
From Coq Require Import ZArith List String Ascii Bool Reals.
From Verif Require Import Base RBase XmlModel XmlSpec NumModel NumSpec HxModel HxSpec ParamsModel ParamsSpec ParXmlSpec TrkXmlSpec
  TpcModuleModel TpcModel TpcXmlModel.
From Verif Require TpcSpec.
Import TpcSpec.
Import ListNotations.
Open Scope R_scope.

(** the parameters [p] in a file of their own are loaded as [q]; C32 says what this means *)
Definition came_back (p q : params) : Prop := exists text, save_params p = Ok text /\ load_params text = Ok q.

(** the pad layout [p] in a file of its own is loaded as [q]; C35 says what this means *)
Definition layout_back (p q : layout2d) : Prop := reload lay_toXML lay_fromXML p = Ok q.

(** one digit *)
Definition one_digit (f : R) : Prop := exists k : Z, (-9 <= k <= 9)%Z /\ f = IZR k.

(** the calls that put the loaded module where the saved one was *)
Definition placing (m : module) : list mcall :=
  [MOffset (reread (fst (getOffset m))) (reread (snd (getOffset m)))] ++
  (match getZPosition m with Some z => [MZ (reread z)] | None => [] end) ++
  [MAngle (reread (getAngle m)); MBorder (reread (getBorderWidth m))].

(** The layout [q] can be mounted in a TPC of coordinate type [type] with a border of width [b]: not a
    rectangular layout in a polar TPC, and no disk that begins at radius zero (C61). *)
Definition mountable (type : Z) (q : layout2d) (b : R) : Prop :=
  (type = POLAR -> lay_type q = POLAR) /\
  (lay_type q = POLAR -> 0 < e0 (lay_extent q) <= e1 (lay_extent q) /\ 0 <= b).

(** [m'] with parameters [p'] is what comes back of the module [m] with parameters [p] *)
Definition module_back (m : module) (p : params) (m' : module) (p' : params) : Prop :=
  exists q f, layout_back (m_layout m) q /\ one_digit f /\
    (f = TpcModuleModel.getReadoutFrequency m <-> one_digit (TpcModuleModel.getReadoutFrequency m)) /\
    module_made (getModuleID m) q (getTPCCoordinateType m) f (placing m) m' /\ came_back p p'.

(** what can be written, and put together again *)
Definition module_saved (m : module) : Prop :=
  is_int (getModuleID m) /\
  exists q, layout_back (m_layout m) q /\ mountable (getTPCCoordinateType m) q (reread (getBorderWidth m)).

(** all numbers of the module come back *)
Definition kept_module (m : module) : Prop :=
  kept (fst (getOffset m)) /\ kept (snd (getOffset m)) /\ kept (getAngle m) /\ kept (getBorderWidth m) /\
  (forall z, getZPosition m = Some z -> kept z).

(** ** Old files *)
(** a TPC as older versions described it *)
Definition old_tpc (at0 : list (string * string)) (drift vel freq : R) (lay : xnode) : xnode :=
  XElem "detector" at0
    [value_elem "maxDriftLength" (print_double drift); value_elem "driftVelocity" (print_double vel);
     value_elem "readoutFrequency" (print_double freq); lay].

(** ** Modules that leave things out *)
Local Open Scope string_scope.
(** what a module may leave to the <default> *)
Definition inheritable : list string :=
  ["moduleID"; "readoutFrequency"; "PadRowLayout2D"; "offset"; "zPosition"; "angle"; "enlargeActiveAreaBy"].
Definition named (name : string) (c : xnode) : bool := String.eqb (Value c) name && is_elem c.
(** the first element [name] among the nodes, if there is one *)
Definition pick (name : string) (ns : list xnode) : list xnode :=
  match find (named name) ns with Some e => [e] | None => [] end.
(** the module with everything written out: its own elements first, then what the default adds, then the
    number, which counts only if neither has one *)
Definition in_full (me : xnode) (de : list xnode) (id : Z) : xnode :=
  XElem "module" [] (children me ++ flat_map (fun k => pick k de) inheritable ++ [value_elem "moduleID" (print_int id)]).

(** the default for the i-th node of a section: the last one before it, or else the first of the section *)
Definition default_of (ns : list xnode) (i : nat) : list xnode :=
  match find (named "default") (rev (firstn i ns)) with
  | Some d => children d
  | None => match find (named "default") ns with Some d => children d | None => [] end
  end.
(** the number of the i-th node: the start count plus the modules before it in the section *)
Definition number_of (ns : list xnode) (start : Z) (i : nat) : Z :=
  (start + Z.of_nat (List.length (filter (named "module") (firstn i ns))))%Z.
(** the modules of a section, written out *)
Definition written_out (ns : list xnode) (start : Z) : list xnode :=
  flat_map (fun i => match nth_error ns i with
                     | Some n => if named "module" n then [in_full n (default_of ns i) (number_of ns start i)] else []
                     | None => []
                     end) (seq 0 (List.length ns)).
(** the start count of a section *)
Definition starts (sec : xnode) (start : Z) : Prop := atoi (getOptionalXMLAttribute sec "moduleIDStartCount" "0") = Ok start.
(** [c'] is the child [c] of the TPC with the modules written out *)
Definition child_in_full (c c' : xnode) : Prop :=
  (exists attrs ch start, c = XElem "modules" attrs ch /\ starts c start /\ c' = XElem "modules" attrs (written_out ch start)) \/
  (named "modules" c = false /\ c' = c).
