(** Model of the linked nodes of a document: TiXmlNode and what TiXmlElement, TiXmlDocument and the other nodes do with
    their children (src/gearxml/tinyxml.cc, include/gear/gearxml/tinyxml.h), with pointers.

    Addresses are integers and never used twice; reading or writing a node that is not alive is undefined behaviour.
    Loops and recursions take a number of turns ([DFuel]: not finished).  Simplifications: of the contents of a node only
    its type and value are kept (for attributes see XmlModel); memory never runs out. *)
From Coq Require Import ZArith List String Bool.
Import ListNotations.
Open Scope Z_scope.

(** TiXmlNode::NodeType, tinyxml.h 412-421 *)
Inductive nkind := KDoc | KElem | KComment | KUnknown | KText | KDecl.
Record data := mkData { n_kind : nkind; n_value : string }.
(** tinyxml.h 653-662: parent, type, firstChild, lastChild, value, prev, next *)
Record cell := mkCell { c_parent : option Z; c_first : option Z; c_last : option Z; c_prev : option Z; c_next : option Z; c_data : data }.
Record heap := mkHeap { cells : Z -> option cell; unused : Z }.
Definition no_nodes : heap := mkHeap (fun _ => None) 1.

(** what a call comes to; [DAbort]: an assertion fails *)
Inductive dres (A : Type) := DOk (x : A) | DUB | DAbort | DFuel.
Arguments DOk {A}. Arguments DUB {A}. Arguments DAbort {A}. Arguments DFuel {A}.
Definition dbind {A B} (r : dres A) (f : A -> dres B) : dres B :=
  match r with DOk x => f x | DUB => DUB | DAbort => DAbort | DFuel => DFuel end.
Notation "x <-- r ;; f" := (dbind r (fun x => f)) (at level 60, r at level 59, right associativity).

Definition upd {A} (f : Z -> A) (a : Z) (x : A) : Z -> A := fun b => if b =? a then x else f b.
Definition get (h : heap) (a : Z) : dres cell := match cells h a with Some c => DOk c | None => DUB end.
Definition put (h : heap) (a : Z) (c : option cell) : heap := mkHeap (upd (cells h) a c) (unused h).
Definition write (h : heap) (a : Z) (f : cell -> cell) : dres heap := c <-- get h a ;; DOk (put h a (Some (f c))).
Definition set_parent x c := mkCell x (c_first c) (c_last c) (c_prev c) (c_next c) (c_data c).
Definition set_first x c := mkCell (c_parent c) x (c_last c) (c_prev c) (c_next c) (c_data c).
Definition set_last x c := mkCell (c_parent c) (c_first c) x (c_prev c) (c_next c) (c_data c).
Definition set_prev x c := mkCell (c_parent c) (c_first c) (c_last c) x (c_next c) (c_data c).
Definition set_next x c := mkCell (c_parent c) (c_first c) (c_last c) (c_prev c) x (c_data c).
Definition set_data x c := mkCell (c_parent c) (c_first c) (c_last c) (c_prev c) (c_next c) x.
Definition is_ptr (p : option Z) (a : Z) : bool := match p with Some b => b =? a | None => false end.

(** the constructor TiXmlNode, tinyxml.cc 152-160 *)
Definition new_node (h : heap) (d : data) : heap * Z :=
  (mkHeap (upd (cells h) (unused h) (Some (mkCell None None None None None d))) (unused h + 1), unused h).

(** the loop of ~TiXmlNode and Clear, tinyxml.cc 165-173, 186-194, given what [delete] does *)
Fixpoint del_kids (del : heap -> Z -> dres heap) (k : nat) (h : heap) (node : option Z) : dres heap :=
  match node with
  | None => DOk h
  | Some n => match k with
              | O => DFuel
              | S k' => c <-- get h n ;; h1 <-- del h n ;; del_kids del k' h1 (c_next c)
              end
  end.
(** the destructors: tinyxml.cc 163-174; ~TiXmlElement (653-656, 659-668) clears first, which comes to the same *)
Fixpoint destroy (k : nat) (h : heap) (a : Z) : dres heap :=
  match k with
  | O => DFuel
  | S k' => c <-- get h a ;; h1 <-- del_kids (destroy k') k' h (c_first c) ;; _ <-- get h1 a ;; DOk (put h1 a None)
  end.
(** Clear, tinyxml.cc 184-198 *)
Definition Clear (k : nat) (h : heap) (a : Z) : dres heap :=
  c <-- get h a ;; h1 <-- del_kids (destroy k) k h (c_first c) ;; h2 <-- write h1 a (set_first None) ;; write h2 a (set_last None).

(** LinkEndChild, tinyxml.cc 201-215 *)
Definition LinkEndChild (h : heap) (this node : Z) : dres heap :=
  h <-- write h node (set_parent (Some this)) ;;
  t <-- get h this ;;
  h <-- write h node (set_prev (c_last t)) ;;
  h <-- write h node (set_next None) ;;
  t <-- get h this ;;
  h <-- match c_last t with
        | Some l => write h l (set_next (Some node))
        | None => write h this (set_first (Some node))
        end ;;
  write h this (set_last (Some node)).

(** Clone and CopyTo, for elements tinyxml.cc 849-880, for documents 1016-1040 (LinkEndChild of clones of all
    children), for the others 1209-1222, 1241-1254, 1338-1358, 1374-1387 (children are not copied) *)
Definition has_kids (d : data) : bool := match n_kind d with KDoc | KElem => true | _ => false end.
Fixpoint copy_kids (cl : heap -> Z -> dres (heap * Z)) (k : nat) (h : heap) (target : Z) (node : option Z) : dres heap :=
  match node with
  | None => DOk h
  | Some n => match k with
              | O => DFuel
              | S k' => r <-- cl h n ;; h <-- LinkEndChild (fst r) target (snd r) ;; c <-- get h n ;;
                        copy_kids cl k' h target (c_next c)
              end
  end.
Fixpoint Clone (k : nat) (h : heap) (a : Z) : dres (heap * Z) :=
  match k with
  | O => DFuel
  | S k' => c <-- get h a ;;
            let (h1, b) := new_node h (c_data c) in
            if has_kids (c_data c) then h2 <-- copy_kids (Clone k') k' h1 b (c_first c) ;; DOk (h2, b)
            else DOk (h1, b)
  end.

(** InsertEndChild, tinyxml.cc 218-225 *)
Definition InsertEndChild (k : nat) (h : heap) (this q : Z) : dres (heap * option Z) :=
  r <-- Clone k h q ;; h <-- LinkEndChild (fst r) this (snd r) ;; DOk (h, Some (snd r)).

(** InsertBeforeChild, tinyxml.cc 228-251 *)
Definition InsertBeforeChild (k : nat) (h : heap) (this : Z) (before : option Z) (q : Z) : dres (heap * option Z) :=
  match before with
  | None => DOk (h, None)
  | Some b =>
      c <-- get h b ;;
      if negb (is_ptr (c_parent c) this) then DOk (h, None)
      else r <-- Clone k h q ;;
           let n := snd r in
           h <-- write (fst r) n (set_parent (Some this)) ;;
           h <-- write h n (set_next (Some b)) ;;
           c <-- get h b ;;
           h <-- write h n (set_prev (c_prev c)) ;;
           h <-- match c_prev c with
                 | Some x => write h x (set_next (Some n))
                 | None => t <-- get h this ;;
                           if is_ptr (c_first t) b then write h this (set_first (Some n)) else DAbort
                 end ;;
           h <-- write h b (set_prev (Some n)) ;;
           DOk (h, Some n)
  end.
(** InsertAfterChild, tinyxml.cc 254-277 *)
Definition InsertAfterChild (k : nat) (h : heap) (this : Z) (after : option Z) (q : Z) : dres (heap * option Z) :=
  match after with
  | None => DOk (h, None)
  | Some b =>
      c <-- get h b ;;
      if negb (is_ptr (c_parent c) this) then DOk (h, None)
      else r <-- Clone k h q ;;
           let n := snd r in
           h <-- write (fst r) n (set_parent (Some this)) ;;
           h <-- write h n (set_prev (Some b)) ;;
           c <-- get h b ;;
           h <-- write h n (set_next (c_next c)) ;;
           h <-- match c_next c with
                 | Some x => write h x (set_prev (Some n))
                 | None => t <-- get h this ;;
                           if is_ptr (c_last t) b then write h this (set_last (Some n)) else DAbort
                 end ;;
           h <-- write h b (set_next (Some n)) ;;
           DOk (h, Some n)
  end.
(** ReplaceChild, tinyxml.cc 280-306 *)
Definition ReplaceChild (k : nat) (h : heap) (this b q : Z) : dres (heap * option Z) :=
  c <-- get h b ;;
  if negb (is_ptr (c_parent c) this) then DOk (h, None)
  else r <-- Clone k h q ;;
       let n := snd r in
       c <-- get (fst r) b ;;
       h <-- write (fst r) n (set_next (c_next c)) ;;
       h <-- write h n (set_prev (c_prev c)) ;;
       h <-- match c_next c with
             | Some x => write h x (set_prev (Some n))
             | None => write h this (set_last (Some n))
             end ;;
       c <-- get h b ;;
       h <-- match c_prev c with
             | Some x => write h x (set_next (Some n))
             | None => write h this (set_first (Some n))
             end ;;
       h <-- destroy k h b ;;
       h <-- write h n (set_parent (Some this)) ;;
       DOk (h, Some n).
(** RemoveChild, tinyxml.cc 308-328 *)
Definition RemoveChild (k : nat) (h : heap) (this b : Z) : dres heap :=
  c <-- get h b ;;
  if negb (is_ptr (c_parent c) this) then DAbort
  else h <-- match c_next c with
             | Some x => write h x (set_prev (c_prev c))
             | None => write h this (set_last (c_prev c))
             end ;;
       c <-- get h b ;;
       h <-- match c_prev c with
             | Some x => write h x (set_next (c_next c))
             | None => write h this (set_first (c_next c))
             end ;;
       destroy k h b.
(** operator= of elements and documents, tinyxml.cc 645-650, 913-918 *)
Definition Assign (k : nat) (h : heap) (a b : Z) : dres heap :=
  h <-- Clear k h a ;; c <-- get h b ;; h <-- write h a (set_data (c_data c)) ;; c <-- get h b ;;
  copy_kids (Clone k) k h a (c_first c).

(** IterateChildren without a value, tinyxml.cc 376-400 *)
Definition IterateChildren (h : heap) (this : Z) (previous : option Z) : dres (option Z) :=
  match previous with
  | None => t <-- get h this ;; DOk (c_first t)
  | Some p => c <-- get h p ;; if is_ptr (c_parent c) this then DOk (c_next c) else DAbort
  end.
(** FirstChild( value ), NextSibling( value ): tinyxml.cc 330-352, 428-448; LastChild( value ), PreviousSibling( value ):
    354-374, 450-470: the loops *)
Fixpoint find_next (k : nat) (h : heap) (v : string) (node : option Z) : dres (option Z) :=
  match node with
  | None => DOk None
  | Some n => match k with
              | O => DFuel
              | S k' => c <-- get h n ;; if String.eqb (n_value (c_data c)) v then DOk (Some n) else find_next k' h v (c_next c)
              end
  end.
Fixpoint find_prev (k : nat) (h : heap) (v : string) (node : option Z) : dres (option Z) :=
  match node with
  | None => DOk None
  | Some n => match k with
              | O => DFuel
              | S k' => c <-- get h n ;; if String.eqb (n_value (c_data c)) v then DOk (Some n) else find_prev k' h v (c_prev c)
              end
  end.
(** IterateChildren( value, previous ), tinyxml.cc 402-426 *)
Definition IterateChildrenV (k : nat) (h : heap) (this : Z) (v : string) (previous : option Z) : dres (option Z) :=
  match previous with
  | None => t <-- get h this ;; find_next k h v (c_first t)
  | Some p => c <-- get h p ;; if is_ptr (c_parent c) this then find_next k h v (c_next c) else DAbort
  end.
(** LastChild( value ), tinyxml.cc 354-374 *)
Definition LastChildV (k : nat) (h : heap) (this : Z) (v : string) : dres (option Z) :=
  t <-- get h this ;; find_prev k h v (c_last t).
(** GetDocument, tinyxml.cc 595-617 *)
Fixpoint GetDocument (k : nat) (h : heap) (node : option Z) : dres (option Z) :=
  match node with
  | None => DOk None
  | Some n => match k with
              | O => DFuel
              | S k' => c <-- get h n ;; match n_kind (c_data c) with KDoc => DOk (Some n) | _ => GetDocument k' h (c_parent c) end
              end
  end.

Inductive call :=
| NNew (d : data)
| NLink (p n : Z)
| NInsEnd (p q : Z)
| NInsBefore (p : Z) (b : option Z) (q : Z)
| NInsAfter (p : Z) (b : option Z) (q : Z)
| NReplace (p b q : Z)
| NRemove (p b : Z)
| NClear (a : Z)
| NDelete (a : Z)
| NCopy (a : Z)                 (* copy constructor or Clone *)
| NAssign (a b : Z).

(** perform a call; what is returned, if a pointer *)
Definition step (k : nat) (h : heap) (c : call) : dres (heap * option Z) :=
  match c with
  | NNew d => let (h', a) := new_node h d in DOk (h', Some a)
  | NLink p n => h <-- LinkEndChild h p n ;; DOk (h, Some n)
  | NInsEnd p q => InsertEndChild k h p q
  | NInsBefore p b q => InsertBeforeChild k h p b q
  | NInsAfter p b q => InsertAfterChild k h p b q
  | NReplace p b q => ReplaceChild k h p b q
  | NRemove p b => h <-- RemoveChild k h p b ;; DOk (h, None)
  | NClear a => h <-- Clear k h a ;; DOk (h, None)
  | NDelete a => h <-- destroy k h a ;; DOk (h, None)
  | NCopy a => r <-- Clone k h a ;; DOk (fst r, Some (snd r))
  | NAssign a b => h <-- Assign k h a b ;; DOk (h, None)
  end.
