(** Model of src/gearxml/CalorimeterParametersXML.cc: calorimeters as XML elements. *)
From Coq Require Import ZArith List String Ascii Bool Reals.
From Verif Require Import Base RBase XmlModel NumModel HxModel ParamsModel ParXmlModel CaloModel.
Import ListNotations.
Local Open Scope string_scope.

(** a calorimeter with its named parameters *)
Definition calo_obj : Type := calo * params.

(** lines 337-350 isEqual with _EPSILON 0.0001 (line 19) *)
Definition isEqual (a b : R) : bool :=
  (Reqb a b || Rltb (Rabs (a - b)) (Rabs ((a + b) / 2 * (1 / 10000))))%R.

(** lines 93-99: nothing has changed *)
Definition same_layer (a b : layer) : bool :=
  isEqual (L_Thickness a) (L_Thickness b) && isEqual (L_AbsorberThickness a) (L_AbsorberThickness b) &&
  isEqual (L_CellSize0 a) (L_CellSize0 b) && isEqual (L_CellSize1 a) (L_CellSize1 b).

(** lines 105-116 and 137-145: one <layer> element *)
Definition layer_elem (repN : Z) (l : layer) : xnode :=
  XElem "layer" (attrs_of
    [("repeat", print_int repN); ("thickness", print_double (L_Thickness l));
     ("absorberThickness", print_double (L_AbsorberThickness l));
     ("cellSize0", print_double (L_CellSize0 l)); ("cellSize1", print_double (L_CellSize1 l))]) [].

(** lines 90-146: the loop over the layers; [cur] are the current values *)
Fixpoint layer_elems (cur : layer) (repN : Z) (v : layout) : list xnode :=
  match v with
  | [] => if (0 <? repN)%Z then [layer_elem repN cur] else []
  | l :: r =>
      if negb (same_layer cur l) && (0 <? repN)%Z
      then layer_elem repN cur :: layer_elems l 1 r
      else layer_elems l (repN + 1) r
  end.

(** lines 42-76: <layout> and <dimensions>; the type is one of the two the constructors set *)
Definition calo_head (c : calo) (ext : list R) : result (list xnode) :=
  let e i := nth i ext 0%R in
  let type := match c_type c with BARREL => "Barrel" | ENDCAP => "Endcap" end in
  let dims := match c_type c with
              | BARREL => [("inner_r", print_double (e 0%nat)); ("outer_z", print_double (e 3%nat))]
              | ENDCAP => [("inner_r", print_double (e 0%nat)); ("outer_r", print_double (e 1%nat)); ("inner_z", print_double (e 2%nat))]
              end in
  if Nat.eqb (List.length ext) 4 then
    Ok [XElem "layout" (attrs_of [("type", type); ("symmetry", print_int (c_sym c)); ("phi0", print_double (c_phi c))]) [];
        XElem "dimensions" (attrs_of dims) []]
  else UB.

(** lines 25-152 toXML; the call of getExtent also refreshes the cached extent of the object,
    which is not tracked here *)
Definition calo_toXML (o : calo_obj) : result xnode :=
  let (c, p) := o in
  match getExtent c with
  | SOk _ ext =>
      rbind (calo_head c ext) (fun h =>
      rbind (params_to_xml p) (fun ps =>
      Ok (XElem "detector" [] (h ++ layer_elems (mkLayer 0 0 0 0 0) 0 (c_layout c) ++ ps))))
  | SThrow _ e => Throw e
  | SUB => UB
  end.

(** tolower of a string, line 174 *)
Fixpoint lower (s : string) : string :=
  match s with
  | EmptyString => ""
  | String c t => String (if ((65 <=? byte c) && (byte c <=? 90))%Z then chr (byte c + 32) else c) (lower t)
  end.

(** [i < n] rounds of the loop lines 256-267; the layer count is zero only for an empty layout *)
Fixpoint add_layers (n : nat) (first : R) (t a c0 c1 : R) (v : layout) : layout :=
  match n with
  | O => v
  | S n' => add_layers n' first t a c0 c1
              (match v with [] => positionLayer v first t c0 c1 a | _ => addLayer v t c0 c1 a end)
  end.

(** lines 248-268: one <layer> element *)
Definition read_layer (first : R) (v : layout) (n : xnode) : result layout :=
  rbind (get_int n "repeat") (fun k =>
  rbind (get_double n "thickness") (fun t =>
  rbind (get_double n "absorberThickness") (fun a =>
  rbind (get_double n "cellSize0") (fun c0 =>
  rbind (get_double n "cellSize1") (fun c1 =>
  Ok (add_layers (Z.to_nat k) first t a c0 c1 v)))))).

(** lines 155-269 fromXML up to the registration: the element is not null *)
Definition calo_fromXML (n : xnode) : result calo_obj :=
  match FirstChildElement "layout" n with
  | None => Throw (EParse "layout")
  | Some lay =>
      rbind (getXMLAttribute lay "type") (fun ty0 =>
      let ty := lower ty0 in
      if negb (String.eqb ty "barrel") && negb (String.eqb ty "endcap") then Throw (EParse "type")
      else match FirstChildElement "dimensions" n with
      | None => Throw (EParse "dimensions")
      | Some dim =>
          rbind (get_int lay "symmetry") (fun sym =>
          rbind (get_double lay "phi0") (fun phi0 =>
          rbind (if String.eqb ty "barrel" then
                   rbind (get_double dim "inner_r") (fun rMin =>
                   rbind (get_double dim "outer_z") (fun zMax =>
                   Ok (new_barrel rMin zMax sym phi0, rMin)))
                 else
                   rbind (get_double dim "inner_r") (fun rMin =>
                   rbind (get_double dim "outer_r") (fun rMax =>
                   rbind (get_double dim "inner_z") (fun zMin =>
                   Ok (new_endcap rMin rMax zMin sym phi0, zMin))))) (fun cf =>
          rbind (params_from_xml n params_empty) (fun p =>
          rbind (rfold (read_layer (snd cf)) (IterateChildren "layer" n) []) (fun v =>
          Ok (set_layout (fst cf) v, p))))))
      end)
  end.
