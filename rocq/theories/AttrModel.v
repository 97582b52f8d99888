(** Model of the attributes of XML elements as linked objects: TiXmlAttributeSet, a ring of attributes closed by a sentinel,
    and what TiXmlElement does with it (src/gearxml/tinyxml.cc, include/gear/gearxml/tinyxml.h).

    Addresses are integers and never used twice; reading or writing an object that is not alive, or the null pointer, is
    undefined behaviour.  An element is known by the address of its sentinel.  Loops take a number of turns ([DFuel]: not
    finished).  Simplifications: names and values contain no NUL (for those see XmlModel); memory never runs out; the
    document and the place of an attribute are left out. *)
From Coq Require Import ZArith List String Bool.
From Verif Require Import DomModel.
Import ListNotations.
Open Scope Z_scope.

(** TiXmlAttribute, tinyxml.h 773-781 *)
Record acell := mkA { a_prev : option Z; a_next : option Z; a_name : string; a_value : string }.
Record aheap := mkAH { acells : Z -> option acell; aunused : Z }.
Definition no_attrs : aheap := mkAH (fun _ => None) 1.
Definition aget (h : aheap) (p : option Z) : dres acell :=
  match p with Some a => match acells h a with Some c => DOk c | None => DUB end | None => DUB end.
Definition aput (h : aheap) (a : Z) (c : option acell) : aheap := mkAH (upd (acells h) a c) (aunused h).
Definition awrite (h : aheap) (p : option Z) (f : acell -> acell) : dres aheap :=
  match p with Some a => c <-- aget h p ;; DOk (aput h a (Some (f c))) | None => DUB end.
Definition aset_prev x c := mkA x (a_next c) (a_name c) (a_value c).
Definition aset_next x c := mkA (a_prev c) x (a_name c) (a_value c).
Definition aset_name x c := mkA (a_prev c) (a_next c) x (a_value c).
Definition aset_value x c := mkA (a_prev c) (a_next c) (a_name c) x.
Definition alloc (h : aheap) (c : acell) : aheap * Z := (mkAH (upd (acells h) (aunused h) (Some c)) (aunused h + 1), aunused h).

(** the constructor TiXmlAttributeSet (of a new element), tinyxml.cc 1392-1396 *)
Definition new_set (h : aheap) : aheap * Z :=
  let (h1, s) := alloc h (mkA None None "" "") in
  (aput h1 s (Some (mkA (Some s) (Some s) "" "")), s).
(** the loop of Find, tinyxml.cc 1435-1457 *)
Fixpoint find_loop (k : nat) (h : aheap) (s : Z) (name : string) (node : option Z) : dres (option Z) :=
  if is_ptr node s then DOk None
  else match k with
       | O => DFuel
       | S k' => c <-- aget h node ;; if String.eqb (a_name c) name then DOk node else find_loop k' h s name (a_next c)
       end.
Definition Find (k : nat) (h : aheap) (s : Z) (name : string) : dres (option Z) :=
  c <-- aget h (Some s) ;; find_loop k h s name (a_next c).
(** Add, tinyxml.cc 1406-1415 *)
Definition Add (k : nat) (h : aheap) (s a : Z) : dres aheap :=
  c <-- aget h (Some a) ;;
  f <-- Find k h s (a_name c) ;;
  match f with
  | Some _ => DAbort
  | None =>
      h <-- awrite h (Some a) (aset_next (Some s)) ;;
      t <-- aget h (Some s) ;;
      h <-- awrite h (Some a) (aset_prev (a_prev t)) ;;
      t <-- aget h (Some s) ;;
      h <-- awrite h (a_prev t) (aset_next (Some a)) ;;
      awrite h (Some s) (aset_prev (Some a))
  end.
(** Remove, tinyxml.cc 1417-1433 *)
Fixpoint remove_loop (k : nat) (h : aheap) (s a : Z) (node : option Z) : dres aheap :=
  if is_ptr node s then DAbort
  else match k with
       | O => DFuel
       | S k' =>
           if is_ptr node a then
             c <-- aget h node ;;
             h <-- awrite h (a_prev c) (aset_next (a_next c)) ;;
             c <-- aget h node ;;
             h <-- awrite h (a_next c) (aset_prev (a_prev c)) ;;
             h <-- awrite h node (aset_next None) ;;
             awrite h node (aset_prev None)
           else c <-- aget h node ;; remove_loop k' h s a (a_next c)
       end.
Definition Remove (k : nat) (h : aheap) (s a : Z) : dres aheap := c <-- aget h (Some s) ;; remove_loop k h s a (a_next c).
(** [delete] of an attribute *)
Definition del (h : aheap) (a : Z) : dres aheap := _ <-- aget h (Some a) ;; DOk (aput h a None).
(** First, Last, tinyxml.h 805-808 *)
Definition First (h : aheap) (s : Z) : dres (option Z) := c <-- aget h (Some s) ;; DOk (if is_ptr (a_next c) s then None else a_next c).
Definition Last (h : aheap) (s : Z) : dres (option Z) := c <-- aget h (Some s) ;; DOk (if is_ptr (a_prev c) s then None else a_prev c).
(** Next, Previous, tinyxml.cc 1068-1102: the sentinel is recognised by its empty name and value *)
Definition is_blank (c : acell) : bool := String.eqb (a_value c) "" && String.eqb (a_name c) "".
Definition Next (h : aheap) (a : Z) : dres (option Z) :=
  c <-- aget h (Some a) ;; n <-- aget h (a_next c) ;; DOk (if is_blank n then None else a_next c).
Definition Previous (h : aheap) (a : Z) : dres (option Z) :=
  c <-- aget h (Some a) ;; n <-- aget h (a_prev c) ;; DOk (if is_blank n then None else a_prev c).

(** SetAttribute, tinyxml.cc 746-765; the parser does the same with an attribute it has read, tinyxmlparser.cc 1121-1129 *)
Definition SetAttribute (k : nat) (h : aheap) (s : Z) (name v : string) : dres aheap :=
  f <-- Find k h s name ;;
  match f with
  | Some a => awrite h (Some a) (aset_value v)
  | None => let (h1, a) := alloc h (mkA None None name v) in Add k h1 s a
  end.
(** RemoveAttribute, tinyxml.cc 472-480 *)
Definition RemoveAttribute (k : nat) (h : aheap) (s : Z) (name : string) : dres aheap :=
  f <-- Find k h s name ;;
  match f with
  | Some a => h <-- Remove k h s a ;; del h a
  | None => DOk h
  end.
(** the loop of ClearThis, tinyxml.cc 662-667 *)
Fixpoint clear_loop (k : nat) (h : aheap) (s : Z) : dres aheap :=
  f <-- First h s ;;
  match f with
  | None => DOk h
  | Some a => match k with O => DFuel | S k' => h <-- Remove k h s a ;; h <-- del h a ;; clear_loop k' h s end
  end.
(** the destructor of an element, tinyxml.cc 653-656, with that of its set, 1399-1403 *)
Definition delete_elem (k : nat) (h : aheap) (s : Z) : dres aheap :=
  h <-- clear_loop k h s ;; c <-- aget h (Some s) ;;
  if is_ptr (a_next c) s && is_ptr (a_prev c) s then DOk (aput h s None) else DAbort.
(** the attributes in CopyTo, tinyxml.cc 856-862 *)
Fixpoint copy_loop (kf k : nat) (h : aheap) (t : Z) (attribute : option Z) : dres aheap :=
  match attribute with
  | None => DOk h
  | Some a => match k with
              | O => DFuel
              | S k' => c <-- aget h (Some a) ;; h <-- SetAttribute kf h t (a_name c) (a_value c) ;; n <-- Next h a ;; copy_loop kf k' h t n
              end
  end.
Definition CopyAttributes (kf k : nat) (h : aheap) (s t : Z) : dres aheap := f <-- First h s ;; copy_loop kf k h t f.
(** Attribute, tinyxml.cc 671-679 *)
Definition Attribute (k : nat) (h : aheap) (s : Z) (name : string) : dres (option string) :=
  f <-- Find k h s name ;;
  match f with Some a => c <-- aget h (Some a) ;; DOk (Some (a_value c)) | None => DOk None end.

Inductive acall :=
| ANew
| ASet (s : Z) (name v : string)
| ARemove (s : Z) (name : string)
| ADelete (s : Z)
| ACopy (s : Z)                    (* copy constructor or Clone *)
| AAssign (t s : Z)
| ASetName (a : Z) (name : string) (* TiXmlAttribute::SetName, tinyxml.h 727 *)
| ASetValue (a : Z) (v : string).  (* TiXmlAttribute::SetValue, tinyxml.h 728 *)

(** perform a call; the new element, if there is one *)
Definition astep (k : nat) (h : aheap) (c : acall) : dres (aheap * option Z) :=
  match c with
  | ANew => let (h', s) := new_set h in DOk (h', Some s)
  | ASet s n v => h <-- SetAttribute k h s n v ;; DOk (h, None)
  | ARemove s n => h <-- RemoveAttribute k h s n ;; DOk (h, None)
  | ADelete s => h <-- delete_elem k h s ;; DOk (h, None)
  | ACopy s => let (h1, t) := new_set h in h2 <-- CopyAttributes k k h1 s t ;; DOk (h2, Some t)
  | AAssign t s => h1 <-- clear_loop k h t ;; h2 <-- CopyAttributes k k h1 s t ;; DOk (h2, None)
  | ASetName a n => h <-- awrite h (Some a) (aset_name n) ;; DOk (h, None)
  | ASetValue a v => h <-- awrite h (Some a) (aset_value v) ;; DOk (h, None)
  end.
