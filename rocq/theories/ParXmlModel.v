(** Model of src/gearxml/GearParametersXML.cc: parameters as XML elements. *)
From Coq Require Import ZArith List String Ascii Bool Reals.
From Verif Require Import Base XmlModel NumModel HxModel ParamsModel.
Import ListNotations.

(** _tokens.back() += c *)
Fixpoint app_last (l : list string) (c : ascii) : list string :=
  match l with
  | [] => []
  | [s] => [s +++ String c ""]
  | s :: t => s :: app_last t c
  end.

(** Tokenizer with delimiter ' ', lines 28-50; [last] says that the last character was one *)
Fixpoint tok (s : string) (last : bool) (acc : list string) : list string :=
  match s with
  | EmptyString => acc
  | String c t =>
      if ceqb c " " then tok t true acc
      else tok t false (app_last (if last then acc ++ [""%string] else acc) c)
  end.
Definition tokenize (s : string) : list string := tok s true [].

(** lines 155-161, 178-184, 199-205: values separated by a blank *)
Fixpoint join (l : list string) : string :=
  match l with
  | [] => ""
  | [s] => s
  | s :: t => s +++ " " +++ join t
  end.

(** one <parameter> element, lines 107-113 *)
Definition param_elem (name type value : string) : xnode :=
  XElem "parameter" (attrs_of [("name", name); ("type", type); ("value", value)]%string) [].

(** lines 104-212 getXMLForParameters: the elements that are appended *)
Definition params_to_xml (p : params) : result (list xnode) :=
  rbind (rall (fun k => rmap (fun v => param_elem k "int" (print_int v)) (getIntVal p k)) (getIntKeys p)) (fun a =>
  rbind (rall (fun k => rmap (fun v => param_elem k "double" (print_double v)) (getDoubleVal p k)) (getDoubleKeys p)) (fun b =>
  rbind (rall (fun k => rmap (fun v => param_elem k "string" v) (getStringVal p k)) (getStringKeys p)) (fun c =>
  rbind (rall (fun k => rmap (fun v => param_elem k "IntVec" (join (map print_int v))) (getIntVals p k)) (getIntVecKeys p)) (fun d =>
  rbind (rall (fun k => rmap (fun v => param_elem k "DoubleVec" (join (map print_double v))) (getDoubleVals p k)) (getDoubleVecKeys p)) (fun e =>
  rbind (rall (fun k => rmap (fun v => param_elem k "StringVec" (join v)) (getStringVals p k)) (getStringVecKeys p)) (fun f =>
  Ok (a ++ b ++ c ++ d ++ e ++ f))))))).

(** lines 225-237: the value is an attribute or the content of the element *)
Definition param_value (n : xnode) : string :=
  match getXMLAttribute n "value" with
  | Ok v => v
  | _ => match children n with c :: _ => c_str (Value c) | [] => ""%string end
  end.

(** lines 240-289: one round of the loop *)
Definition read_param (p : params) (n : xnode) : result params :=
  match tokenize (param_value n) with
  | [] => Ok p
  | t0 :: ts =>
      rbind (getXMLAttribute n "name") (fun name =>
      rbind (getXMLAttribute n "type") (fun type =>
        if String.eqb type "int" then rmap (setIntVal p name) (atoi t0)
        else if String.eqb type "double" then Ok (setDoubleVal p name (atof t0))
        else if String.eqb type "string" then Ok (setStringVal p name t0)
        else if String.eqb type "IntVec" then rmap (setIntVals p name) (rall atoi (t0 :: ts))
        else if String.eqb type "DoubleVec" then Ok (setDoubleVals p name (map atof (t0 :: ts)))
        else if String.eqb type "StringVec" then Ok (setStringVals p name (t0 :: ts))
        else Ok p))
  end.

(** lines 216-292 setParametersFromXML *)
Definition params_from_xml (n : xnode) (p : params) : result params :=
  rfold read_param (IterateChildren "parameter" n) p.

(** lines 61-71 toXML: a <detector> element holding the parameters *)
Definition parameters_toXML (p : params) : result xnode :=
  rmap (XElem "detector" []) (params_to_xml p).
(** lines 74-94 fromXML, apart from the registration with the manager *)
Definition parameters_fromXML (n : xnode) : result params := params_from_xml n params_empty.
