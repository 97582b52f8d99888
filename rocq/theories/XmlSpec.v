(** What it means for a tree to be writable without loss, and for a file to be tidy.  These
    predicates talk about bytes only; they do not use the reading or writing functions. *)
From Coq Require Import ZArith List String Ascii Bool.
From Verif Require Import Base XmlModel.
Import ListNotations.
Open Scope Z_scope.

(** [s] contains [t] somewhere *)
Definition contains (t s : string) : Prop := exists a b, s = a +++ t +++ b.
Definition contains_byte (c : ascii) (s : string) : Prop := exists a b, s = a +++ String c b.

Definition no_nul (s : string) : Prop := forall c, contains_byte c s -> byte c <> 0.

(** The one sequence the writer does not protect: the beginning of a hexadecimal character
    reference. *)
Definition charref_free (s : string) : Prop := ~ contains "&#x"%string s.

(** Names: a letter or underscore (or a byte above 126), then letters, digits, _ - . : *)
Definition start_byte (b : Z) : Prop :=
  (65 <= b <= 90) \/ (97 <= b <= 122) \/ b = 95 \/ 127 <= b.
Definition name_byte (b : Z) : Prop :=
  start_byte b \/ (48 <= b <= 57) \/ b = 45 \/ b = 46 \/ b = 58.
Definition xml_name (s : string) : Prop :=
  exists c t, s = String c t /\ start_byte (byte c) /\ forall d, contains_byte d t -> name_byte (byte d).

(** Text that white space handling does not change: no space at either end, no two spaces in a
    row, and something other than white space in it. *)
Definition tidy_text (s : string) : Prop :=
  (forall t, s <> String " "%char t) /\ (forall t, s <> t +++ " ") /\ ~ contains "  " s /\
  exists c, contains_byte c s /\ ~ (9 <= byte c <= 13) /\ byte c <> 32.

Fixpoint no_adjacent_text (l : list xnode) : Prop :=
  match l with
  | XText _ :: ((XText _ :: _) as t) => False
  | _ :: t => no_adjacent_text t
  | [] => True
  end.

(** Trees the program can save and load *)
Inductive writable : xnode -> Prop :=
| W_elem : forall n a ch,
    xml_name n ->
    (forall k v, In (k, v) a -> xml_name k /\ no_nul v /\ charref_free v) ->
    NoDup (map fst a) ->
    (forall x, In x ch -> writable x) ->
    no_adjacent_text ch ->
    writable (XElem n a ch)
| W_text : forall s, no_nul s -> charref_free s -> tidy_text s -> writable (XText s)
| W_comment : forall s, no_nul s -> ~ contains_byte "&"%char s -> ~ contains "-->" s ->
    writable (XComment s).

(** Tidy files: every quoted value and every comment is closed, every character reference is
    complete, and no multi-byte character is cut off. *)
Definition space_byte (b : Z) : Prop := (9 <= b <= 13) \/ b = 32.
Definition hex_byte (b : Z) : Prop := (48 <= b <= 57) \/ (65 <= b <= 70) \/ (97 <= b <= 102).
Definition all_bytes (P : Z -> Prop) (s : string) : Prop := forall c, contains_byte c s -> P (byte c).

Definition quotes_closed (s : string) : Prop :=
  forall a w q b, s = a +++ String "="%char (w +++ String q b) -> all_bytes (fun x => space_byte x \/ 128 <= x) w ->
    q = """"%char \/ q = "'"%char -> contains_byte q b.
Definition comments_closed (s : string) : Prop :=
  forall a b, s = a +++ "<!--" +++ b -> contains "-->" b.
Definition references_complete (s : string) : Prop :=
  forall a b, s = a +++ "&#" +++ b ->
    (exists d r, b = d +++ ";" +++ r /\ all_bytes (fun x => 48 <= x <= 57) d) \/
    (exists d r, b = "x" +++ d +++ ";" +++ r /\ all_bytes hex_byte d).
(** multi-byte characters (UTF-8 lead bytes) are followed by enough continuation bytes *)
Definition utf8_complete (s : string) : Prop :=
  forall a c b, s = a +++ String c b ->
    (194 <= byte c < 224 -> exists u r, b = u +++ r /\ String.length u = 1%nat /\ all_bytes (fun x => 128 <= x) u) /\
    (224 <= byte c < 240 -> exists u r, b = u +++ r /\ String.length u = 2%nat /\ all_bytes (fun x => 128 <= x) u) /\
    (240 <= byte c < 245 -> exists u r, b = u +++ r /\ String.length u = 3%nat /\ all_bytes (fun x => 128 <= x) u).

Definition tidy_file (s : string) : Prop :=
  quotes_closed s /\ comments_closed s /\ references_complete s /\ utf8_complete s.
