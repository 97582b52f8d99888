(** The positions TinyXml keeps track of while it reads: TiXmlParsingData::Stamp and TiXmlDocument::SetError
    (/repo/src/gearxml/tinyxmlparser.cc), and the parser of XmlModel.v with all calls of them.

    The parsers below follow those of XmlModel.v line by line and add the calls of [Stamp] and [SetError].
    Conventions are those of XmlModel.v.  Rows and columns do not overflow. *)
From Coq Require Import ZArith List String Ascii Bool.
From Verif Require Import Base XmlModel.
Import ListNotations.
Open Scope string_scope.
Open Scope list_scope.
Open Scope Z_scope.

(** the errors the parser sets, tinyxml.h 203-222 *)
Inductive xerr := ErrElement | ErrName | ErrValue | ErrAttributes | ErrEmptyTag | ErrEndTag | ErrEmptyDoc.

(** tinyxmlerror.cc 40-56 *)
Definition errorString (x : xerr) : string :=
  match x with
  | ErrElement => "Error parsing Element."
  | ErrName => "Failed to read Element name"
  | ErrValue => "Error reading Element value."
  | ErrAttributes => "Error reading Attributes."
  | ErrEmptyTag => "Error: empty tag."
  | ErrEndTag => "Error reading end tag."
  | ErrEmptyDoc => "Error document empty."
  end.

(** TiXmlParsingData (tinyxmlparser.cc 173-195): cursor and stamp, which is [None] once it points behind the
    terminating NUL; and what TiXmlDocument remembers of an error: id and errorLocation *)
Record pst := mkP { c_row : Z; c_col : Z; stamp : option string; errd : option (xerr * Z * Z) }.

Inductive tr (A : Type) : Type :=
| TOk (st : pst) (a : A)
| TUB
| TFuel
| TWait.   (* Stamp has not returned yet *)
Arguments TOk {A} st a.
Arguments TUB {A}.
Arguments TFuel {A}.
Arguments TWait {A}.

Definition M (A : Type) := pst -> tr A.
Definition ret {A} (a : A) : M A := fun st => TOk st a.
Definition mbind {A B} (m : M A) (f : A -> M B) : M B :=
  fun st => match m st with TOk st' a => f a st' | TUB => TUB | TFuel => TFuel | TWait => TWait end.
Definition lift {A} (r : pr A) : M A :=
  fun st => match r with POk a => TOk st a | PUB => TUB | PFuel => TFuel end.

(** TiXmlDocument::tabsize, tinyxml.cc 885, 891, 900 *)
Definition tabsize : Z := 4.

(** the loop of TiXmlParsingData::Stamp, tinyxmlparser.cc 215-306.  One unit of fuel is one turn; [now] is the number
    of bytes from the place asked for to the end.  [None]: the loop has not ended. *)
Fixpoint stamp_loop (k : nat) (e : enc) (now : nat) (p : string) (row col : Z) : option (Z * Z * option string) :=
  match k with
  | O => None
  | S k' =>
      if (now <? String.length p)%nat then
        match p with
        | EmptyString => Some (row, col, Some p)
        | String c t =>
            if byte c =? 13 then                                                  (* 225-236 *)
              stamp_loop k' e now
                (match t with String d u => if byte d =? 10 then u else t | EmptyString => t end) (row + 1) 0
            else if byte c =? 10 then                                             (* 238-253 *)
              stamp_loop k' e now
                (match t with String d u => if byte d =? 13 then u else t | EmptyString => t end) (row + 1) 0
            else if byte c =? 9 then                                              (* 255-261 *)
              stamp_loop k' e now t row ((Z.quot col tabsize + 1) * tabsize)
            else if byte c =? 239 then                                            (* 263-285 *)
              if is_utf8 e then
                match t with
                | String _ (String _ u) =>
                    stamp_loop k' e now u row (match bom_rest p with Some _ => col | None => col + 1 end)
                | _ => stamp_loop k' e now p row col
                end
              else stamp_loop k' e now t row (col + 1)
            else                                                                  (* 287-305 *)
              let step := if is_utf8 e then utf8_len c else 1 in
              if Z.of_nat (String.length p) <? step then Some (row, col + 1, None)
              else stamp_loop k' e now (drop (Z.to_nat step) p) row (col + 1)
        end
      else Some (row, col, Some p)
  end.

(** TiXmlParsingData::Stamp, tinyxmlparser.cc 198-312 *)
Definition Stamp (k : nat) (e : enc) (now : string) : M unit := fun st =>
  match stamp st with
  | None => TOk st tt
  | Some p =>
      match stamp_loop k e (String.length now) p (c_row st) (c_col st) with
      | None => TWait
      | Some (row, col, p') => TOk (mkP row col p' (errd st)) tt
      end
  end.

(** TiXmlDocument::SetError, tinyxmlparser.cc 785-803: only the first error counts; without a place the location
    is cleared to (-1, -1) *)
Definition SetError (k : nat) (x : xerr) (e : enc) (place : ptr) : M unit := fun st =>
  match errd st with
  | Some _ => TOk st tt
  | None =>
      match place with
      | None => TOk (mkP (c_row st) (c_col st) (stamp st) (Some (x, -1, -1))) tt
      | Some now =>
          mbind (Stamp k e now) (fun _ st' =>
            TOk (mkP (c_row st') (c_col st') (stamp st') (Some (x, c_row st', c_col st'))) tt) st
      end
  end.

Notation "x <- m ;; f" := (mbind m (fun x => f)) (at level 100, m at next level, right associativity).
Notation "' pat <- m ;; f" := (mbind m (fun x => match x with pat => f end))
  (at level 100, pat pattern, m at next level, right associativity).
Notation "m ;;; f" := (mbind m (fun _ => f)) (at level 100, right associativity).

(** TiXmlAttribute::Parse, tinyxmlparser.cc 1319-1387; [doc]: the attribute knows its document *)
Definition tparse_attr (k : nat) (doc : bool) (e : enc) (p : ptr) : M (string * string * ptr) :=
  let fail (name : string) (place : ptr) : M (string * string * ptr) :=
    (if doc then SetError k ErrAttributes e place else ret tt) ;;; ret (name, "", None) in
  match SkipWhiteSpace e p with
  | None | Some EmptyString => ret ("", "", None)                                 (* 1322 *)
  | Some s =>
      Stamp k e s ;;;                                                             (* 1332 *)
      (let (name, p1) := ReadName (Some s) in
       match p1 with
       | None | Some EmptyString => fail name (Some s)                            (* 1340 *)
       | Some s1 =>
           match SkipWhiteSpace e (Some s1) with
           | Some (String c s2) =>
               if ceqb c "=" then
                 match SkipWhiteSpace e (Some s2) with
                 | None => fail name None                                         (* 1354 *)
                 | Some EmptyString => fail name (Some "")                        (* 1354 *)
                 | Some (String d s3) =>
                     if ceqb d apos || ceqb d quot
                     then '(v, r) <- lift (read_quoted e d s3) ;; ret (name, v, r)
                     else let (v, r) := read_bare (String d s3) in ret (name, v, Some r)
                 end
               else fail name (Some (String c s2))                                (* 1346 *)
           | q => fail name q                                                     (* 1346 *)
           end
       end)
  end.

(** the attribute loop of TiXmlElement::Parse, tinyxmlparser.cc 1057-1131 *)
Fixpoint tparse_attrs (k n : nat) (e : enc) (attrs : list (string * string)) (p : ptr)
  : M (list (string * string) * attrs_end) :=
  match n with
  | O => fun _ => TFuel
  | S n' =>
      match SkipWhiteSpace e p with
      | None | Some EmptyString => SetError k ErrAttributes e p ;;; ret (attrs, AFail true)        (* 1063 *)
      | Some (String c t as s) =>
          if ceqb c "/" then
            match t with
            | String d r => if ceqb d gtc then ret (attrs, AEmpty r)
                            else SetError k ErrEmptyTag e (Some t) ;;; ret (attrs, AFail true)     (* 1072 *)
            | EmptyString => SetError k ErrEmptyTag e (Some "") ;;; ret (attrs, AFail true)
            end
          else if ceqb c gtc then ret (attrs, AOpen t)
          else
            '(name, v, q) <- tparse_attr k true e (Some s) ;;
            match q with
            | None | Some EmptyString => SetError k ErrElement e (Some s) ;;; ret (attrs, AFail true) (* 1115 *)
            | Some _ =>
                match find_attr (c_str name) attrs with
                | Some _ => ret (replace_attr (c_str name) (c_str v) attrs, AFail false)
                | None => tparse_attrs k n' e (attrs ++ [(name, v)]) q
                end
            end
      end
  end.

(** TiXmlText::Parse, tinyxmlparser.cc 1411-1427 *)
Definition tparse_text (k : nat) (e : enc) (s : string) : M (string * ptr) :=
  Stamp k e s ;;; lift (parse_text e s).                                          (* 1417 *)
(** a node that is no element and no declaration *)
Definition quiet (r : pr (xnode * ptr * bool)) : M (xnode * ptr) :=
  '(x, q, _) <- lift r ;; ret (x, q).
(** TiXmlComment::Parse, tinyxmlparser.cc 1292-1316 *)
Definition tparse_comment (k : nat) (e : enc) (s : string) : M (xnode * ptr) :=
  Stamp k e s ;;; quiet (parse_comment e s).                                      (* 1302 *)
(** TiXmlUnknown::Parse, tinyxmlparser.cc 1230-1262 *)
Definition tparse_unknown (k : nat) (e : enc) (s : string) : M (xnode * ptr) :=
  Stamp k e s ;;; quiet (parse_unknown s).                                        (* 1238 *)

(** the loop of TiXmlDeclaration::Parse, tinyxmlparser.cc 1476-1510 *)
Fixpoint tdecl_loop (k n : nat) (e : enc) (v c a : string) (p : ptr) : M (xnode * ptr) :=
  match n with
  | O => fun _ => TFuel
  | S n' =>
      match p with
      | None | Some EmptyString => ret (XDecl v c a, None)
      | Some (String d t as s) =>
          if ceqb d gtc then ret (XDecl v c a, Some t)
          else
            match SkipWhiteSpace e (Some s) with
            | None => ret (XDecl v c a, None)
            | Some s1 =>
                if StringEqualNoCase s1 "version" then
                  '(_, w, q) <- tparse_attr k false e (Some s1) ;; tdecl_loop k n' e (c_str w) c a q
                else if StringEqualNoCase s1 "encoding" then
                  '(_, w, q) <- tparse_attr k false e (Some s1) ;; tdecl_loop k n' e v (c_str w) a q
                else if StringEqualNoCase s1 "standalone" then
                  '(_, w, q) <- tparse_attr k false e (Some s1) ;; tdecl_loop k n' e v c (c_str w) q
                else tdecl_loop k n' e v c a (Some (skip_word s1))
            end
      end
  end.
(** TiXmlDeclaration::Parse, tinyxmlparser.cc 1453-1511 *)
Definition tparse_decl (k : nat) (e : enc) (s : string) : M (xnode * ptr) :=
  Stamp k e s ;;; tdecl_loop k (S (String.length s)) e "" "" "" (Some (drop 5 s)).  (* 1467 *)

(** TiXmlElement::Parse (tinyxmlparser.cc 1015-1133) and TiXmlElement::ReadValue (1136-1202) *)
Fixpoint tparse_elem (k n : nat) (e : enc) (p : ptr) {struct n} : M (xnode * ptr) :=
  match n with
  | O => fun _ => TFuel
  | S n' =>
      match SkipWhiteSpace e p with
      | None | Some EmptyString => SetError k ErrElement e None ;;; ret (XElem "" [] [], None)     (* 1022 *)
      | Some (String c t as s) =>
          Stamp k e s ;;;                                                         (* 1029 *)
          (if negb (ceqb c ltc) then SetError k ErrElement e (Some s) ;;; ret (XElem "" [] [], None)
           else
             let q0 := SkipWhiteSpace e (Some t) in
             let (name, p1) := ReadName q0 in
             match p1 with
             | None | Some EmptyString => SetError k ErrName e q0 ;;; ret (XElem name [] [], None) (* 1047 *)
             | Some s1 =>
                 '(attrs, en) <- tparse_attrs k (S (String.length s1)) e [] (Some s1) ;;
                 match en with
                 | AFail er => ret (XElem name attrs [], None)
                 | AEmpty r => ret (XElem name attrs [], Some r)
                 | AOpen r =>
                     '(ch, q) <- tread_value k n' e (SkipWhiteSpace e (Some r)) ;;
                     match q with
                     | None | Some EmptyString => ret (XElem name attrs ch, None)
                     | Some s2 =>
                         match strip ("</" +++ name +++ ">") s2 with
                         | Some r2 => ret (XElem name attrs ch, Some r2)
                         | None => SetError k ErrEndTag e (Some s2) ;;; ret (XElem name attrs ch, None) (* 1095 *)
                         end
                     end
                 end
             end)
      end
  end
with tread_value (k n : nat) (e : enc) (p : ptr) {struct n} : M (list xnode * ptr) :=
  match n with
  | O => fun _ => TFuel
  | S n' =>
      match p with
      | None => SetError k ErrValue e None ;;; ret ([], None)                     (* 1199 *)
      | Some EmptyString => ret ([], Some "")
      | Some (String c t as s) =>
          if negb (ceqb c ltc) then
            '(v, q) <- tparse_text k e s ;;
            '(ch, q2) <- tread_value k n' e (SkipWhiteSpace e q) ;;
            ret ((if blank v then ch else XText v :: ch), q2)
          else if StringEqual s "</" then ret ([], Some s)
          else
            '(x, q) <- (match identify s with
                        | KDecl => tparse_decl k e s
                        | KComment => tparse_comment k e s
                        | KUnknown => tparse_unknown k e s
                        | KElem => tparse_elem k n' e (Some s)
                        end) ;;
            '(ch, q2) <- tread_value k n' e (SkipWhiteSpace e q) ;;
            ret (x :: ch, q2)
      end
  end.

(** the node at the beginning of [s] *)
Definition tparse_node (k : nat) (e : enc) (s : string) : M (xnode * ptr) :=
  match identify s with
  | KDecl => tparse_decl k e s
  | KComment => tparse_comment k e s
  | KUnknown => tparse_unknown k e s
  | KElem => tparse_elem k (elem_fuel s) e (Some s)
  end.

(** tinyxmlparser.cc 741-773 *)
Fixpoint tdoc_loop (k n : nat) (e : enc) (p : ptr) : M (list xnode) :=
  match n with
  | O => fun _ => TFuel
  | S n' =>
      match p with
      | None | Some EmptyString => ret []
      | Some (String c t as s) =>
          if negb (ceqb c ltc) then ret []
          else
            '(x, q) <- tparse_node k e s ;;
            (let e' := next_enc e x in
             l <- tdoc_loop k n' e' (SkipWhiteSpace e' q) ;;
             ret (x :: l))
      end
  end.

(** TiXmlDocument::Parse, tinyxmlparser.cc 692-783 *)
Definition tparse_doc (k : nat) (s : string) : tr (list xnode) :=
  let e := start_enc s in
  let st := mkP 0 0 (Some s) None in                                              (* 717-720 *)
  match SkipWhiteSpace e (Some s) with
  | None => (SetError k ErrEmptyDoc e None ;;; ret []) st                         (* 701, 737 *)
  | Some s1 =>
      (l <- tdoc_loop k (S (String.length s1)) e (Some s1) ;;
       match l with
       | [] => SetError k ErrEmptyDoc e None ;;; ret []                           (* 777 *)
       | _ => ret l
       end) st
  end.

(** TiXmlDocument::LoadFile, tinyxml.cc 944-1000, on a file with the bytes [s] *)
Definition tLoadFile (k : nat) (s : string) : tr (list xnode) :=
  if String.eqb s "" then TOk (mkP (-1) (-1) None None) [] else tparse_doc k s.

(** TiXmlDocument::ErrorRow, ErrorCol, ErrorDesc, tinyxml.h 1218-1233, after loading; 0 and 0 without an error
    or without a place *)
Definition ErrorRow (st : pst) : Z := match errd st with Some (_, r, _) => r + 1 | None => 0 end.
Definition ErrorCol (st : pst) : Z := match errd st with Some (_, _, c) => c + 1 | None => 0 end.
Definition ErrorDesc (st : pst) : string := match errd st with Some (x, _, _) => errorString x | None => "" end.
