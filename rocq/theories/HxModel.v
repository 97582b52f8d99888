(** Model of what all XML handlers share: access to the nodes of a document and the helper
    functions of src/gearxml/XMLHandlerMgr.cc.  Simplification: the texts of the exceptions are
    reduced to the name of the attribute or element that is missing. *)
From Coq Require Import ZArith List String Ascii Bool Reals.
From Verif Require Import Base XmlModel NumModel.
Import ListNotations.

(** TiXmlNode::Value / SValue, tinyxml.h 455-470; a declaration has an empty value *)
Definition Value (n : xnode) : string :=
  match n with
  | XElem name _ _ => name
  | XText s => s
  | XComment s => s
  | XUnknown s => s
  | XDecl _ _ _ => ""
  end.

(** firstChild and the next pointers, tinyxml.h 690-695; only elements have children here *)
Definition children (n : xnode) : list xnode :=
  match n with XElem _ _ ch => ch | _ => [] end.

(** TiXmlNode::ToElement, tinyxml.h 667 *)
Definition is_elem (n : xnode) : bool := match n with XElem _ _ _ => true | _ => false end.

(** TiXmlNode::FirstChild(name), tinyxml.cc 330-339 *)
Definition FirstChild (name : string) (n : xnode) : option xnode :=
  find (fun c => String.eqb (Value c) name) (children n).

(** the nodes IterateChildren(name, previous) visits, tinyxml.cc 402-413 and 428-437 *)
Definition IterateChildren (name : string) (n : xnode) : list xnode :=
  filter (fun c => String.eqb (Value c) name) (children n).

(** TiXmlNode::FirstChildElement(name), tinyxml.cc 510-522 *)
Definition FirstChildElement (name : string) (n : xnode) : option xnode :=
  find (fun c => String.eqb (Value c) name && is_elem c) (children n).

(** XMLHandlerMgr.cc 88-110 getXMLAttribute; the node is not null *)
Definition getXMLAttribute (n : xnode) (name : string) : result string :=
  match n with
  | XElem _ a _ => match Attribute name a with Some v => Ok v | None => Throw (EParse name) end
  | _ => Throw (EParse name)
  end.

(** XMLHandlerMgr.cc 112-126 getOptionalXMLAttribute *)
Definition getOptionalXMLAttribute (n : xnode) (name default : string) : string :=
  match getXMLAttribute n name with Ok v => v | _ => default end.

(** XMLHandlerMgr.cc 132-156 getChildElementValue *)
Definition getChildElementValue (n : xnode) (name : string) : result string :=
  if is_elem n then
    match FirstChildElement name n with
    | Some c => getXMLAttribute c "value"
    | None => Throw (EParse name)
    end
  else Throw (EParse name).

(** XMLHandlerMgr.cc 159-178 getOptionalChildElementValue *)
Definition getOptionalChildElementValue (n : xnode) (name default : string) : result string :=
  if is_elem n then
    match FirstChildElement name n with
    | Some c => getXMLAttribute c "value"
    | None => Ok default
    end
  else Throw (EParse name).

(** atof( getXMLAttribute( node, name ).c_str() ) *)
Definition get_double (n : xnode) (name : string) : result R := rmap atof (getXMLAttribute n name).
(** atoi( getXMLAttribute( node, name ).c_str() ) *)
Definition get_int (n : xnode) (name : string) : result Z := rbind (getXMLAttribute n name) atoi.

(** A sequence of SetAttribute calls on a new element *)
Definition attrs_of (l : list (string * string)) : list (string * string) :=
  fold_left (fun a kv => SetAttribute (fst kv) (snd kv) a) l [].

(** all results in turn, or the first that is not a value *)
Fixpoint rall {A B} (f : A -> result B) (l : list A) : result (list B) :=
  match l with
  | [] => Ok []
  | x :: t => rbind (f x) (fun y => rbind (rall f t) (fun ys => Ok (y :: ys)))
  end.

(** a loop that changes a state and may be left by an exception *)
Fixpoint rfold {A S} (f : S -> A -> result S) (l : list A) (s : S) : result S :=
  match l with
  | [] => Ok s
  | x :: t => rbind (f s x) (rfold f t)
  end.
