(** TiXmlHandle and the element searches it uses, on the linked nodes of DomModel.  A handle is a pointer to a node or null.
    [v] is the value asked for, [None] for the overload without one (the overloads for std::string only forward, tinyxml.h 1410-1416;
    values without NUL).  [k] bounds the turns of each loop. *)
From Coq Require Import ZArith List String Bool.
From Verif Require Import DomModel.
Open Scope Z_scope.

(** FirstChild, NextSibling with and without a value once the pointer has been read: tinyxml.cc 330-352, 428-448, tinyxml.h 487-560 *)
Definition by_value (k : nat) (h : heap) (v : option string) (node : option Z) : dres (option Z) :=
  match v with None => DOk node | Some w => find_next k h w node end.
Definition NFirstChild (k : nat) (h : heap) (v : option string) (n : Z) : dres (option Z) := c <-- get h n ;; by_value k h v (c_first c).
Definition NNextSibling (k : nat) (h : heap) (v : option string) (n : Z) : dres (option Z) := c <-- get h n ;; by_value k h v (c_next c).
(** ToElement, tinyxml.h 617 *)
Definition is_elem (c : cell) : bool := match n_kind (c_data c) with KElem => true | _ => false end.
(** the loops of FirstChildElement and NextSiblingElement, tinyxml.cc 482-593 *)
Fixpoint elem_loop (turns k : nat) (h : heap) (v : option string) (node : option Z) : dres (option Z) :=
  match node with
  | None => DOk None
  | Some n => match turns with
              | O => DFuel
              | S t => c <-- get h n ;; if is_elem c then DOk (Some n) else n' <-- NNextSibling k h v n ;; elem_loop t k h v n'
              end
  end.
Definition NFirstChildElement (k : nat) (h : heap) (v : option string) (n : Z) : dres (option Z) :=
  c <-- NFirstChild k h v n ;; elem_loop k k h v c.
Definition NNextSiblingElement (k : nat) (h : heap) (v : option string) (n : Z) : dres (option Z) :=
  c <-- NNextSibling k h v n ;; elem_loop k k h v c.

(** FirstChild, FirstChildElement of a handle: tinyxml.cc 1491-1536 *)
Definition HFirstChild k h v (hd : option Z) : dres (option Z) := match hd with Some n => NFirstChild k h v n | None => DOk None end.
Definition HFirstChildElement k h v (hd : option Z) : dres (option Z) := match hd with Some n => NFirstChildElement k h v n | None => DOk None end.
(** the loop of Child and ChildElement, 1543-1549 and alike *)
Fixpoint count_loop (turns : nat) (next : Z -> dres (option Z)) (i count : Z) (child : option Z) : dres (option Z) :=
  match child with
  | None => DOk None
  | Some c => if i <? count then match turns with O => DFuel | S t => n <-- next c ;; count_loop t next (i + 1) count n end else DOk (Some c)
  end.
(** Child, 1539-1574 *)
Definition HChild k h v (count : Z) (hd : option Z) : dres (option Z) :=
  match hd with Some n => c <-- NFirstChild k h v n ;; count_loop k (NNextSibling k h v) 0 count c | None => DOk None end.
(** ChildElement, 1577-1612 *)
Definition HChildElement k h v (count : Z) (hd : option Z) : dres (option Z) :=
  match hd with Some n => c <-- NFirstChildElement k h v n ;; count_loop k (NNextSiblingElement k h v) 0 count c | None => DOk None end.
(** Element, Text, Unknown: tinyxml.h 1423-1428 *)
Definition HCast (want : nkind) (h : heap) (hd : option Z) : dres (option Z) :=
  match hd with
  | None => DOk None
  | Some n => c <-- get h n ;; match want, n_kind (c_data c) with
                               | KElem, KElem | KText, KText | KUnknown, KUnknown => DOk (Some n)
                               | _, _ => DOk None
                               end
  end.

(** one call on a handle; [docHandle.FirstChild( "a" ).Child( 2 )...] *)
Inductive hcall :=
| FirstChild_ (v : option string)
| FirstChildElement_ (v : option string)
| Child_ (v : option string) (count : Z)
| ChildElement_ (v : option string) (count : Z).
Definition on_handle (k : nat) (h : heap) (c : hcall) (hd : option Z) : dres (option Z) :=
  match c with
  | FirstChild_ v => HFirstChild k h v hd
  | FirstChildElement_ v => HFirstChildElement k h v hd
  | Child_ v n => HChild k h v n hd
  | ChildElement_ v n => HChildElement k h v n hd
  end.
Fixpoint chained (k : nat) (h : heap) (cs : list hcall) (hd : option Z) : dres (option Z) :=
  match cs with nil => DOk hd | cons c cs => hd' <-- on_handle k h c hd ;; chained k h cs hd' end.
