(** Documents that can be exchanged through streams; what may come before the root element. *)
From Coq Require Import ZArith List String Ascii Bool.
From Verif Require Import Base XmlModel XmlSpec StreamModel.
Import ListNotations.
Open Scope Z_scope.

(** no comment in the tree contains "-->" or starts with ">" or "->" *)
Inductive safe_comments : xnode -> Prop :=
| SC_elem n a ch : (forall x, In x ch -> safe_comments x) -> safe_comments (XElem n a ch)
| SC_text s : safe_comments (XText s)
| SC_comment s : ~ contains "-->" ("--" +++ s) -> safe_comments (XComment s).
Definition streamable (x : xnode) : Prop := writable x /\ safe_comments x.

(** White space, comments, declarations and the like before the root element *)
Inductive prolog : string -> Prop :=
| P_end : prolog ""
| P_space c p : space_byte (byte c) -> prolog p -> prolog (String c p)
| P_comment s p : no_nul s -> ~ contains "-->" ("--" +++ s) -> prolog p -> prolog ("<!--" +++ s +++ "-->" +++ p)
| P_question d p : no_nul d -> ~ contains_byte ">"%char d -> prolog p -> prolog ("<?" +++ d +++ ">" +++ p)
| P_exclamation d p : no_nul d -> ~ contains_byte ">"%char d -> (forall e, d <> "--" +++ e) -> prolog p -> prolog ("<!" +++ d +++ ">" +++ p).

(** documents read one after the other *)
Inductive reads (n : nat) : string -> list (list xnode) -> string -> Prop :=
| reads_end s : reads n s [] s
| reads_doc s l s' ds r : stream_in n s = SOk (l, false, s', true) -> reads n s' ds r -> reads n s (l :: ds) r.
(** the text of documents written one after the other, each after some white space *)
Inductive written : list (list xnode) -> string -> Prop :=
| written_end : written [] ""
| written_doc w l ds s : all_bytes space_byte w -> written ds s -> written (l :: ds) (w +++ out_doc l +++ s).
(** a document with one element, its root, at the end *)
Definition one_root (l : list xnode) : Prop :=
  exists pre root, l = pre ++ [root] /\ is_elem root = true /\ (forall x, In x pre -> exists s, x = XComment s) /\ (forall x, In x l -> streamable x).
