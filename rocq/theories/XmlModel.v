(** The XML text layer of GEAR: the bundled TinyXml, writing (tinyxml.cc) and reading
    (tinyxmlparser.cc).

    Conventions.  A C string is a Coq [string] (bytes), its end being the terminating NUL; a
    [const char*] into the buffer is the rest of the buffer from there on, and the null pointer is
    [None].  [TiXmlDocument::LoadFile] (tinyxml.cc 944-1000) builds its buffer with [fgets] and
    [+=], so the buffer holds no NUL byte.  The build defines NDEBUG (asserts are not modelled) and
    the C locale is assumed for isspace, isalpha, isalnum and tolower.  Rows, columns and error
    texts are left to PosModel.v: here an error is a flag.  Running out of memory or of stack is not modelled. *)
From Coq Require Import ZArith List String Ascii Bool.
From Verif Require Import Base.
Import ListNotations.
Open Scope string_scope.
Open Scope list_scope.
Open Scope Z_scope.

(** concatenation of strings *)
Infix "+++" := String.append (right associativity, at level 60).

(** Outcome of a parser step: a value, undefined behaviour, or not finished within the fuel. *)
Inductive pr (A : Type) : Type :=
| POk (a : A)
| PUB
| PFuel.
Arguments POk {A} a.
Arguments PUB {A}.
Arguments PFuel {A}.

Definition pbind {A B} (r : pr A) (f : A -> pr B) : pr B :=
  match r with POk a => f a | PUB => PUB | PFuel => PFuel end.

(** ** Bytes *)

Definition byte (c : ascii) : Z := Z.of_N (N_of_ascii c).
(** conversion to char *)
Definition chr (z : Z) : ascii := ascii_of_N (Z.to_N (z mod 256)).

Definition ceqb (a b : ascii) : bool := Ascii.eqb a b.

(** isspace and tinyxml.h 239-242 IsWhiteSpace: space, \t \n \v \f \r *)
Definition IsWhiteSpace (c : ascii) : bool :=
  let b := byte c in ((9 <=? b) && (b <=? 13)) || (b =? 32).

Definition isletter (b : Z) : bool :=
  ((65 <=? b) && (b <=? 90)) || ((97 <=? b) && (b <=? 122)).
Definition isdigit_b (b : Z) : bool := (48 <=? b) && (b <=? 57).

(** tinyxmlparser.cc 131-149 *)
Definition IsAlpha (c : ascii) : bool :=
  if byte c <? 127 then isletter (byte c) else true.

(** tinyxmlparser.cc 152-170 *)
Definition IsAlphaNum (c : ascii) : bool :=
  if byte c <? 127 then isletter (byte c) || isdigit_b (byte c) else true.

(** tinyxml.h 329-340; for single bytes both branches agree on 7-bit characters, and the only
    comparisons made are against 7-bit letters *)
Definition ToLower (c : ascii) : ascii :=
  let b := byte c in if (65 <=? b) && (b <=? 90) then chr (b + 32) else c.

(** tinyxml.h 110-115 *)
Inductive enc := EncUnknown | EncUtf8 | EncLegacy.
Definition is_utf8 (e : enc) : bool := match e with EncUtf8 => true | _ => false end.

Definition ptr := option string.

(** [strip t s]: the rest of [s] after the prefix [t] *)
Fixpoint strip (t s : string) : option string :=
  match t with
  | EmptyString => Some s
  | String a t' =>
      match s with
      | String b s' => if ceqb a b then strip t' s' else None
      | EmptyString => None
      end
  end.

Fixpoint drop (n : nat) (s : string) : string :=
  match n with
  | O => s
  | S n' => match s with EmptyString => EmptyString | String _ t => drop n' t end
  end.

(** tinyxmlparser.cc 524-562 StringEqual, case sensitive *)
Definition StringEqual (p tag : string) : bool :=
  match strip tag p with Some _ => true | None => false end.

(** the same ignoring case *)
Fixpoint StringEqualNoCase (p tag : string) : bool :=
  match tag with
  | EmptyString => true
  | String a t =>
      match p with
      | String b p' => if ceqb (ToLower b) (ToLower a) then StringEqualNoCase p' t else false
      | EmptyString => false
      end
  end.

(** tinyxmlparser.cc 326-349: the byte order marks ef bb bf, ef bf be, ef bf bf *)
Definition bom_rest (s : string) : option string :=
  match s with
  | String a (String b (String c t)) =>
      if (byte a =? 239) &&
         (((byte b =? 187) && (byte c =? 191)) || ((byte b =? 191) && (byte c =? 190)) ||
          ((byte b =? 191) && (byte c =? 191)))
      then Some t else None
  | _ => None
  end.

(** tinyxmlparser.cc 357-361 *)
Fixpoint skip_ws (s : string) : string :=
  match s with
  | EmptyString => EmptyString
  | String c t => if IsWhiteSpace c then skip_ws t else s
  end.

(** tinyxmlparser.cc 322-356; the fuel is the length of the string *)
Fixpoint skip_ws_utf8 (n : nat) (s : string) : string :=
  match n with
  | O => s
  | S n' =>
      match bom_rest s with
      | Some t => skip_ws_utf8 n' t
      | None =>
          match s with
          | EmptyString => EmptyString
          | String c t => if IsWhiteSpace c then skip_ws_utf8 n' t else s
          end
      end
  end.

(** tinyxmlparser.cc 316-364 SkipWhiteSpace: null for a null pointer and at the end of the buffer *)
Definition SkipWhiteSpace (e : enc) (p : ptr) : ptr :=
  match p with
  | None => None
  | Some EmptyString => None
  | Some s => Some (if is_utf8 e then skip_ws_utf8 (String.length s) s else skip_ws s)
  end.

(** ** Writing *)

Definition amp : ascii := "&"%char.
Definition quot : ascii := """"%char.
Definition apos : ascii := "'"%char.
Definition ltc : ascii := "<"%char.
Definition gtc : ascii := ">"%char.
Definition semi : ascii := ";"%char.
Definition sp : ascii := " "%char.
Definition nl : ascii := chr 10.

Definition hexdigit (z : Z) : ascii := chr (if z <? 10 then 48 + z else 55 + z).

(** tinyxml.cc 87-129: one character outside a character reference *)
Definition esc1 (c : ascii) : string :=
  if ceqb c amp then "&amp;"
  else if ceqb c ltc then "&lt;"
  else if ceqb c gtc then "&gt;"
  else if ceqb c quot then "&quot;"
  else if ceqb c apos then "&apos;"
  else if byte c <? 32 then
    "&#x" +++ String (hexdigit (byte c / 16)) (String (hexdigit (byte c mod 16)) ";")
  else String c "".

Definition first_is (c : ascii) (s : string) : bool :=
  match s with String d _ => ceqb c d | EmptyString => false end.

(** tinyxml.cc 56-131 PutString.  [raw]: inside the loop 79-85 that copies a character reference. *)
Fixpoint put_string (raw : bool) (s : string) : string :=
  match s with
  | EmptyString => EmptyString
  | String c t =>
      if raw && negb (String.eqb t "") then
        String c (put_string (negb (first_is semi t)) t)
      else if ceqb c amp && StringEqual t "#x" then
        String c (put_string true t)
      else esc1 c +++ put_string false t
  end.
Definition PutString (s : string) : string := put_string false s.

(** what a function taking a [const char*] sees of a std::string *)
Fixpoint c_str (s : string) : string :=
  match s with
  | EmptyString => EmptyString
  | String c t => if byte c =? 0 then EmptyString else String c (c_str t)
  end.

Fixpoint has_char (c : ascii) (s : string) : bool :=
  match s with
  | EmptyString => false
  | String d t => ceqb c d || has_char c t
  end.

(** A document tree.  Attributes in order of insertion (TiXmlAttributeSet, tinyxml.cc 1392-1457). *)
Inductive xnode : Type :=
| XElem (name : string) (attrs : list (string * string)) (children : list xnode)
| XText (s : string)
| XComment (s : string)
| XUnknown (s : string)
| XDecl (version encoding standalone : string).

(** TiXmlAttributeSet::Find, tinyxml.cc 1435-1457 *)
Fixpoint find_attr (name : string) (l : list (string * string)) : option string :=
  match l with
  | [] => None
  | (n, v) :: t => if String.eqb n name then Some v else find_attr name t
  end.

(** TiXmlAttribute::SetValue on the attribute Find returns *)
Fixpoint replace_attr (name v : string) (l : list (string * string)) : list (string * string) :=
  match l with
  | [] => []
  | (n, w) :: t => if String.eqb n name then (n, v) :: t else (n, w) :: replace_attr name v t
  end.

(** TiXmlElement::SetAttribute, tinyxml.cc 746-765; both arguments go through C strings *)
Definition SetAttribute (name v : string) (l : list (string * string)) : list (string * string) :=
  match find_attr (c_str name) l with
  | Some _ => replace_attr (c_str name) (c_str v) l
  | None => l ++ [(c_str name, c_str v)]
  end.

(** TiXmlElement::Attribute, tinyxml.cc 671-679, as read through a [const char*] *)
Definition Attribute (name : string) (l : list (string * string)) : option string :=
  option_map c_str (find_attr name l).

(** TiXmlAttribute::Print, tinyxml.cc 1104-1115 *)
Definition print_attr (a : string * string) : string :=
  let q := if has_char quot (snd a) then apos else quot in
  c_str (PutString (fst a)) +++ String "="%char (String q (c_str (PutString (snd a)) +++ String q "")).

Fixpoint indent (depth : nat) : string :=
  match depth with O => "" | S d => "    " +++ indent d end.

Definition is_text (x : xnode) : bool := match x with XText _ => true | _ => false end.

Definition is_elem (x : xnode) : bool := match x with XElem _ _ _ => true | _ => false end.

Fixpoint print_attrs (l : list (string * string)) : string :=
  match l with [] => "" | a :: t => " " +++ print_attr a +++ print_attrs t end.

Definition nls : string := String nl "".

(** TiXmlElement::Print 767-816, TiXmlText::Print 1227-1232, TiXmlComment::Print 1191-1198,
    TiXmlUnknown::Print 1360-1365, TiXmlDeclaration::Print 1299-1310 *)
Fixpoint print_node (depth : nat) (x : xnode) : string :=
  match x with
  | XText s => c_str (PutString s)
  | XComment s => indent depth +++ "<!--" +++ c_str s +++ "-->"
  | XUnknown s => indent depth +++ "<" +++ c_str s +++ ">"
  | XDecl v e s =>
      "<?xml " +++
      (if String.eqb v "" then "" else "version=" +++ String quot (c_str v +++ String quot " ")) +++
      (if String.eqb e "" then "" else "encoding=" +++ String quot (c_str e +++ String quot " ")) +++
      (if String.eqb s "" then "" else "standalone=" +++ String quot (c_str s +++ String quot " ")) +++
      "?>"
  | XElem name attrs children =>
      indent depth +++ "<" +++ c_str name +++ print_attrs attrs +++
      match children with
      | [] => " />"
      | [XText s] => ">" +++ c_str (PutString s) +++ "</" +++ c_str name +++ ">"
      | _ =>
          ">" +++
          (fix go (l : list xnode) : string :=
             match l with
             | [] => ""
             | c :: t => (if is_text c then "" else nls) +++ print_node (S depth) c +++ go t
             end) children +++
          nls +++ indent depth +++ "</" +++ c_str name +++ ">"
      end
  end.

Fixpoint print_children (depth : nat) (l : list xnode) : string :=
  match l with
  | [] => ""
  | c :: t => (if is_text c then "" else nls) +++ print_node depth c +++ print_children depth t
  end.

(** TiXmlDocument::Print, tinyxml.cc 1042-1050: the bytes SaveFile writes (1002-1013) *)
Fixpoint print_doc (l : list xnode) : string :=
  match l with
  | [] => ""
  | x :: t => print_node 0 x +++ nls +++ print_doc t
  end.

(** ** Reading *)

(** the loop of tinyxmlparser.cc 415-424 *)
Definition name_char (c : ascii) : bool :=
  IsAlphaNum c || ceqb c "_" || ceqb c "-" || ceqb c "." || ceqb c ":".
Fixpoint read_name_loop (s : string) : string * string :=
  match s with
  | EmptyString => ("", "")
  | String c t =>
      if name_char c then let (n, r) := read_name_loop t in (String c n, r) else ("", s)
  end.

(** tinyxmlparser.cc 400-428 ReadName *)
Definition ReadName (p : ptr) : string * ptr :=
  match p with
  | Some (String c t) =>
      if IsAlpha c || ceqb c "_"
      then let (n, r) := read_name_loop (String c t) in (n, Some r)
      else ("", None)
  | _ => ("", None)
  end.

(** strchr(s, ';'): what is before the first semicolon, and what is after it *)
Fixpoint split_semi (s : string) : option (string * string) :=
  match s with
  | EmptyString => None
  | String c t =>
      if ceqb c semi then Some ("", t)
      else match split_semi t with Some (a, b) => Some (String c a, b) | None => None end
  end.

Fixpoint srev (s acc : string) : string :=
  match s with EmptyString => acc | String c t => srev t (String c acc) end.

Definition hexval (c : ascii) : option Z :=
  let b := byte c in
  if (48 <=? b) && (b <=? 57) then Some (b - 48)
  else if (97 <=? b) && (b <=? 102) then Some (b - 97 + 10)
  else if (65 <=? b) && (b <=? 70) then Some (b - 65 + 10)
  else None.

Definition two32 : Z := 4294967296.
Definition two64 : Z := 18446744073709551616.

(** tinyxmlparser.cc 456-468: backwards from the semicolon to an 'x'.  [mult] is an unsigned,
    [ucs] an unsigned long (64 bits). *)
Fixpoint hex_scan (r : string) (mult ucs : Z) : option Z :=
  match r with
  | EmptyString => Some ucs
  | String c t =>
      if ceqb c "x" then Some ucs
      else match hexval c with
           | Some d => hex_scan t ((mult * 16) mod two32) ((ucs + (mult * d) mod two32) mod two64)
           | None => None
           end
  end.

(** tinyxmlparser.cc 483-491: backwards from the semicolon to a '#' *)
Fixpoint dec_scan (r : string) (mult ucs : Z) : option Z :=
  match r with
  | EmptyString => Some ucs
  | String c t =>
      if ceqb c "#" then Some ucs
      else if isdigit_b (byte c)
           then dec_scan t ((mult * 10) mod two32)
                         ((ucs + (mult * (byte c - 48)) mod two32) mod two64)
           else None
  end.

(** tinyxmlparser.cc 87-128 ConvertUTF32ToUTF8 *)
Definition utf8_cont (z : Z) : ascii := chr (Z.land (Z.lor z 128) 191).
Definition ConvertUTF32ToUTF8 (u : Z) : string :=
  if u <? 128 then String (chr u) ""
  else if u <? 2048 then
    String (chr (Z.lor (Z.shiftr u 6) 192)) (String (utf8_cont u) "")
  else if u <? 65536 then
    String (chr (Z.lor (Z.shiftr u 12) 224))
      (String (utf8_cont (Z.shiftr u 6)) (String (utf8_cont u) ""))
  else if u <? 2097152 then
    String (chr (Z.lor (Z.shiftr u 18) 240))
      (String (utf8_cont (Z.shiftr u 12))
        (String (utf8_cont (Z.shiftr u 6)) (String (utf8_cont u) "")))
  else "".

Definition ucs_bytes (e : enc) (u : Z) : string :=
  if is_utf8 e then ConvertUTF32ToUTF8 u else String (chr u) "".

(** tinyxmlparser.cc 506-520: the named entities; anything else yields no character at all,
    because the length stays 0 *)
Definition named_entity (s : string) : string * ptr :=
  match strip "&amp;" s with Some r => (String amp "", Some r) | None =>
  match strip "&lt;" s with Some r => (String ltc "", Some r) | None =>
  match strip "&gt;" s with Some r => (String gtc "", Some r) | None =>
  match strip "&quot;" s with Some r => (String quot "", Some r) | None =>
  match strip "&apos;" s with Some r => (String apos "", Some r) | None =>
  ("", Some (drop 1 s)) end end end end end.

(** tinyxmlparser.cc 430-521 GetEntity, [s] starting with '&': the bytes of the character and the
    pointer behind it *)
Definition GetEntity (e : enc) (s : string) : string * ptr :=
  match s with
  | String _ (String h (String c r)) =>
      if ceqb h "#" then
        if ceqb c "x" then
          match r with
          | EmptyString => ("", None)
          | _ =>
              match split_semi r with
              | None => ("", None)
              | Some (ds, rest) =>
                  match hex_scan (srev ds "") 1 0 with
                  | Some u => (ucs_bytes e u, Some rest)
                  | None => ("", None)
                  end
              end
          end
        else
          match split_semi (String c r) with
          | None => ("", None)
          | Some (ds, rest) =>
              match dec_scan (srev ds "") 1 0 with
              | Some u => (ucs_bytes e u, Some rest)
              | None => ("", None)
              end
          end
      else named_entity s
  | _ => named_entity s
  end.

(** tinyxmlparser.cc 65-84 utf8ByteTable *)
Definition utf8_len (c : ascii) : Z :=
  let b := byte c in
  if b <? 194 then 1 else if b <? 224 then 2 else if b <? 240 then 3 else if b <? 245 then 4 else 1.

Fixpoint take (n : nat) (s : string) : string :=
  match n with
  | O => ""
  | S n' => match s with EmptyString => "" | String c t => String c (take n' t) end
  end.

(** tinyxml.h 272-302 GetChar, [s] not empty.  A multi-byte character cut off by the end of the
    buffer moves the pointer behind the terminating NUL, where the caller dereferences it. *)
Definition GetChar (e : enc) (s : string) : pr (string * ptr) :=
  match s with
  | EmptyString => PUB
  | String c t =>
      let len := if is_utf8 e then utf8_len c else 1 in
      if len =? 1 then
        if ceqb c amp then POk (GetEntity e s) else POk (String c "", Some t)
      else if Z.of_nat (String.length s) <? len then PUB
      else POk (take (Z.to_nat len) s, Some (drop (Z.to_nat len) s))
  end.

(** where ReadText stops: before the end tag (rest behind the tag), at the end of the buffer, or
    with a null pointer *)
Inductive stop := AtTag (rest : string) | AtEnd | AtNull.

(** tinyxmlparser.cc 576-584: white space kept *)
Fixpoint read_keep (n : nat) (e : enc) (tag : string) (p : ptr) : pr (string * stop) :=
  match n with
  | O => PFuel
  | S n' =>
      match p with
      | None => POk ("", AtNull)
      | Some EmptyString => POk ("", AtEnd)
      | Some s =>
          match strip tag s with
          | Some r => POk ("", AtTag r)
          | None =>
              pbind (GetChar e s) (fun '(b, q) =>
              pbind (read_keep n' e tag q) (fun '(u, st) => POk (b +++ u, st)))
          end
      end
  end.

(** tinyxmlparser.cc 592-622: white space condensed; [w]: white space seen since the last
    character *)
Fixpoint read_trim (n : nat) (e : enc) (tag : string) (w : bool) (p : ptr) : pr (string * stop) :=
  match n with
  | O => PFuel
  | S n' =>
      match p with
      | None => POk ("", AtNull)
      | Some EmptyString => POk ("", AtEnd)
      | Some (String c t as s) =>
          match strip tag s with
          | Some r => POk ("", AtTag r)
          | None =>
              if IsWhiteSpace c then read_trim n' e tag true (Some t)
              else
                pbind (GetChar e s) (fun '(b, q) =>
                pbind (read_trim n' e tag false q) (fun '(u, st) =>
                POk ((if w then " " else "") +++ b +++ u, st)))
          end
      end
  end.

Definition plen (p : ptr) : nat := match p with Some s => String.length s | None => O end.

(** tinyxmlparser.cc 564-625 ReadText (the pointer addition of line 624 is left to the callers) *)
Definition ReadText (e : enc) (trim : bool) (tag : string) (p : ptr) : pr (string * stop) :=
  if trim then let q := SkipWhiteSpace e p in read_trim (S (plen q)) e tag false q
  else read_keep (S (plen p)) e tag p.

(** tinyxmlparser.cc 1378-1384: a value without quotes *)
Fixpoint read_bare (s : string) : string * string :=
  match s with
  | EmptyString => ("", "")
  | String c t =>
      if IsWhiteSpace c || ceqb c "/" || ceqb c gtc then ("", s)
      else let (v, r) := read_bare t in (String c v, r)
  end.

(** ReadText with a quote as end tag.  When the quote is missing or the text is broken off, the
    pointer returned is behind the terminating NUL or next to null, and the caller
    (tinyxmlparser.cc 1113) dereferences it. *)
Definition read_quoted (e : enc) (q : ascii) (t : string) : pr (string * ptr) :=
  pbind (ReadText e false (String q "") (Some t)) (fun '(v, st) =>
  match st with AtTag r => POk (v, Some r) | _ => PUB end).

(** tinyxmlparser.cc 1319-1387 TiXmlAttribute::Parse: name, value, pointer behind, error *)
Definition parse_attr (e : enc) (p : ptr) : pr (string * string * ptr * bool) :=
  match SkipWhiteSpace e p with
  | None | Some EmptyString => POk ("", "", None, false)
  | Some s =>
      let (name, p1) := ReadName (Some s) in
      match p1 with
      | None | Some EmptyString => POk (name, "", None, true)
      | Some s1 =>
          match SkipWhiteSpace e (Some s1) with
          | Some (String c s2) =>
              if ceqb c "=" then
                match SkipWhiteSpace e (Some s2) with
                | None | Some EmptyString => POk (name, "", None, true)
                | Some (String d s3) =>
                    if ceqb d apos || ceqb d quot
                    then pbind (read_quoted e d s3) (fun '(v, r) => POk (name, v, r, false))
                    else let (v, r) := read_bare (String d s3) in POk (name, v, Some r, false)
                end
              else POk (name, "", None, true)
          | _ => POk (name, "", None, true)
          end
      end
  end.

(** how the attribute loop of TiXmlElement::Parse (tinyxmlparser.cc 1057-1131) ends *)
Inductive attrs_end :=
| AEmpty (rest : string)   (* "/>" *)
| AOpen (rest : string)    (* ">" *)
| AFail (err : bool).      (* return 0 *)

(** tinyxmlparser.cc 1057-1131 *)
Fixpoint parse_attrs (n : nat) (e : enc) (attrs : list (string * string)) (p : ptr)
  : pr (list (string * string) * attrs_end) :=
  match n with
  | O => PFuel
  | S n' =>
      match SkipWhiteSpace e p with
      | None | Some EmptyString => POk (attrs, AFail true)
      | Some (String c t as s) =>
          if ceqb c "/" then
            match t with
            | String d r => if ceqb d gtc then POk (attrs, AEmpty r) else POk (attrs, AFail true)
            | EmptyString => POk (attrs, AFail true)
            end
          else if ceqb c gtc then POk (attrs, AOpen t)
          else
            pbind (parse_attr e (Some s)) (fun '(name, v, q, err) =>
            match q with
            | None | Some EmptyString => POk (attrs, AFail true)
            | Some _ =>
                match find_attr (c_str name) attrs with
                | Some _ => POk (replace_attr (c_str name) (c_str v) attrs, AFail false)
                | None => parse_attrs n' e (attrs ++ [(name, v)]) q
                end
            end)
      end
  end.

(** tinyxmlparser.cc 1513-1519 TiXmlText::Blank *)
Fixpoint blank (s : string) : bool :=
  match s with EmptyString => true | String c t => IsWhiteSpace c && blank t end.

(** tinyxmlparser.cc 1411-1427 TiXmlText::Parse.  At the end of the buffer the pointer is moved
    forth and back; next to null it is undefined. *)
Definition parse_text (e : enc) (s : string) : pr (string * ptr) :=
  pbind (ReadText e true "<" (Some s)) (fun '(v, st) =>
  match st with
  | AtTag r => POk (v, Some (String ltc r))
  | AtEnd => POk (v, Some "")
  | AtNull => PUB
  end).

(** tinyxmlparser.cc 1292-1316 TiXmlComment::Parse, [s] starting with "<!--" *)
Definition parse_comment (e : enc) (s : string) : pr (xnode * ptr * bool) :=
  pbind (ReadText e false "-->" (Some (drop 4 s))) (fun '(v, st) =>
  match st with AtTag r => POk (XComment v, Some r, false) | _ => PUB end).

(** tinyxmlparser.cc 1249-1261 *)
Fixpoint read_unknown (s : string) : string * string :=
  match s with
  | EmptyString => ("", "")
  | String c t =>
      if ceqb c gtc then ("", t) else let (v, r) := read_unknown t in (String c v, r)
  end.

(** tinyxmlparser.cc 1230-1262 TiXmlUnknown::Parse, [s] starting with '<' *)
Definition parse_unknown (s : string) : pr (xnode * ptr * bool) :=
  let (v, r) := read_unknown (drop 1 s) in POk (XUnknown v, Some r, false).

(** tinyxmlparser.cc 1506-1507 *)
Fixpoint skip_word (s : string) : string :=
  match s with
  | EmptyString => EmptyString
  | String c t => if ceqb c gtc || IsWhiteSpace c then s else skip_word t
  end.

(** tinyxmlparser.cc 1476-1510: the loop of TiXmlDeclaration::Parse.  The attributes parsed here
    know no document, so they set no error. *)
Fixpoint decl_loop (n : nat) (e : enc) (v c a : string) (p : ptr) : pr (xnode * ptr * bool) :=
  match n with
  | O => PFuel
  | S n' =>
      match p with
      | None | Some EmptyString => POk (XDecl v c a, None, false)
      | Some (String d t as s) =>
          if ceqb d gtc then POk (XDecl v c a, Some t, false)
          else
            match SkipWhiteSpace e (Some s) with
            | None => POk (XDecl v c a, None, false)
            | Some s1 =>
                if StringEqualNoCase s1 "version" then
                  pbind (parse_attr e (Some s1)) (fun '(_, w, q, _) => decl_loop n' e (c_str w) c a q)
                else if StringEqualNoCase s1 "encoding" then
                  pbind (parse_attr e (Some s1)) (fun '(_, w, q, _) => decl_loop n' e v (c_str w) a q)
                else if StringEqualNoCase s1 "standalone" then
                  pbind (parse_attr e (Some s1)) (fun '(_, w, q, _) => decl_loop n' e v c (c_str w) q)
                else decl_loop n' e v c a (Some (skip_word s1))
            end
      end
  end.

(** tinyxmlparser.cc 1453-1511, [s] starting with "<?xml" *)
Definition parse_decl (e : enc) (s : string) : pr (xnode * ptr * bool) :=
  decl_loop (S (String.length s)) e "" "" "" (Some (drop 5 s)).

(** tinyxmlparser.cc 806-883 Identify: the kind of the node at '<' *)
Inductive kind := KDecl | KComment | KUnknown | KElem.
Definition identify (s : string) : kind :=
  if StringEqualNoCase s "<?xml" then KDecl
  else if StringEqual s "<!--" then KComment
  else if StringEqual s "<!" then KUnknown
  else match s with
       | String _ (String c _) => if IsAlpha c || ceqb c "_" then KElem else KUnknown
       | _ => KUnknown
       end.

(** TiXmlElement::Parse (tinyxmlparser.cc 1015-1133) and TiXmlElement::ReadValue (1136-1202). *)
Fixpoint parse_elem (n : nat) (e : enc) (p : ptr) {struct n} : pr (xnode * ptr * bool) :=
  match n with
  | O => PFuel
  | S n' =>
      match SkipWhiteSpace e p with
      | None | Some EmptyString => POk (XElem "" [] [], None, true)
      | Some (String c t) =>
          if negb (ceqb c ltc) then POk (XElem "" [] [], None, true)
          else
            let (name, p1) := ReadName (SkipWhiteSpace e (Some t)) in
            match p1 with
            | None | Some EmptyString => POk (XElem name [] [], None, true)
            | Some s1 =>
                pbind (parse_attrs (S (String.length s1)) e [] (Some s1)) (fun '(attrs, en) =>
                match en with
                | AFail er => POk (XElem name attrs [], None, er)
                | AEmpty r => POk (XElem name attrs [], Some r, false)
                | AOpen r =>
                    pbind (read_value n' e (SkipWhiteSpace e (Some r))) (fun '(ch, q, er) =>
                    match q with
                    | None | Some EmptyString => POk (XElem name attrs ch, None, er)
                    | Some s2 =>
                        match strip ("</" +++ name +++ ">") s2 with
                        | Some r2 => POk (XElem name attrs ch, Some r2, er)
                        | None => POk (XElem name attrs ch, None, true)
                        end
                    end)
                end)
            end
      end
  end
with read_value (n : nat) (e : enc) (p : ptr) {struct n} : pr (list xnode * ptr * bool) :=
  match n with
  | O => PFuel
  | S n' =>
      match p with
      | None => POk ([], None, true)
      | Some EmptyString => POk ([], Some "", false)
      | Some (String c t as s) =>
          if negb (ceqb c ltc) then
            pbind (parse_text e s) (fun '(v, q) =>
            pbind (read_value n' e (SkipWhiteSpace e q)) (fun '(ch, q2, er) =>
            POk ((if blank v then ch else XText v :: ch), q2, er)))
          else if StringEqual s "</" then POk ([], Some s, false)
          else
            pbind (match identify s with
                   | KDecl => parse_decl e s
                   | KComment => parse_comment e s
                   | KUnknown => parse_unknown s
                   | KElem => parse_elem n' e (Some s)
                   end) (fun '(x, q, er1) =>
            pbind (read_value n' e (SkipWhiteSpace e q)) (fun '(ch, q2, er2) =>
            POk (x :: ch, q2, er1 || er2)))
      end
  end.

Definition elem_fuel (s : string) : nat := 2 * String.length s + 2.

(** the node at the beginning of [s] (Identify, then the Parse of its class) *)
Definition parse_node (e : enc) (s : string) : pr (xnode * ptr * bool) :=
  match identify s with
  | KDecl => parse_decl e s
  | KComment => parse_comment e s
  | KUnknown => parse_unknown s
  | KElem => parse_elem (elem_fuel s) e (Some s)
  end.

(** tinyxmlparser.cc 754-770: a declaration sets the encoding *)
Definition next_enc (e : enc) (x : xnode) : enc :=
  match e, x with
  | EncUnknown, XDecl _ c _ =>
      if String.eqb c "" then EncUtf8
      else if StringEqualNoCase c "UTF-8" then EncUtf8
      else if StringEqualNoCase c "UTF8" then EncUtf8
      else EncLegacy
  | _, _ => e
  end.

(** tinyxmlparser.cc 741-773: the nodes of the document and the error flag *)
Fixpoint doc_loop (n : nat) (e : enc) (p : ptr) : pr (list xnode * bool) :=
  match n with
  | O => PFuel
  | S n' =>
      match p with
      | None | Some EmptyString => POk ([], false)
      | Some (String c t as s) =>
          if negb (ceqb c ltc) then POk ([], false)
          else
            pbind (parse_node e s) (fun '(x, q, er) =>
            let e' := next_enc e x in
            pbind (doc_loop n' e' (SkipWhiteSpace e' q)) (fun '(l, er2) =>
            POk (x :: l, er || er2)))
      end
  end.

(** tinyxmlparser.cc 725-731 *)
Definition start_enc (s : string) : enc :=
  match s with
  | String a (String b (String c _)) =>
      if (byte a =? 239) && (byte b =? 187) && (byte c =? 191) then EncUtf8 else EncUnknown
  | _ => EncUnknown
  end.

(** TiXmlDocument::Parse, tinyxmlparser.cc 692-783 *)
Definition parse_doc (s : string) : pr (list xnode * bool) :=
  let e := start_enc s in
  match SkipWhiteSpace e (Some s) with
  | None => POk ([], true)
  | Some s1 =>
      pbind (doc_loop (S (String.length s1)) e (Some s1)) (fun '(l, er) =>
      POk (l, er || match l with [] => true | _ => false end))
  end.

(** TiXmlDocument::LoadFile (tinyxml.cc 944-1000) on a file with the bytes [s]: the document and
    whether it returns true.  An empty file returns false without an error. *)
Definition LoadFile (s : string) : pr (list xnode * bool) :=
  if String.eqb s "" then POk ([], false)
  else pbind (parse_doc s) (fun '(l, er) => POk (l, negb er)).
