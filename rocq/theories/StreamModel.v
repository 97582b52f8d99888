(** Model of TinyXml's operators >> and << for documents and C++ streams: StreamIn of the nodes
    (src/gearxml/tinyxmlparser.cc) and StreamOut (src/gearxml/tinyxml.cc).

    A stream is what can still be read from it and whether it is good; get and peek at its end give EOF (-1) and make it not
    good.  The text read so far ([tag] in the code) is kept last byte first.  Functions that are called with a good stream
    only do not ask for it.  Loops that need not end take a number of turns ([SFuel]: not finished).  Simplifications:
    documents are empty before they are read into; errors that StreamIn sets are left out, since operator>> clears them when it
    parses afterwards; the assertions of StreamIn are left out, they look at bytes just seen.  Parsing is that of XmlModel. *)
From Coq Require Import ZArith List String Ascii Bool.
From Verif Require Import Base XmlModel.
Import ListNotations.
Open Scope Z_scope.

(** ** Writing *)

(** TiXmlAttribute::StreamOut, tinyxml.cc 1118-1134 *)
Definition out_attr (a : string * string) : string :=
  let q := if has_char quot (snd a) then apos else quot in
  PutString (fst a) +++ String "="%char (String q (PutString (snd a) +++ String q "")).
Fixpoint out_attrs (l : list (string * string)) : string :=
  match l with [] => "" | a :: t => " " +++ out_attr a +++ out_attrs t end.
(** TiXmlElement::StreamOut 818-847, TiXmlText::StreamOut 1235-1238, TiXmlComment::StreamOut 1200-1206,
    TiXmlUnknown::StreamOut 1368-1371, TiXmlDeclaration::StreamOut 1312-1335 *)
Fixpoint out_node (x : xnode) : string :=
  match x with
  | XText s => PutString s
  | XComment s => "<!--" +++ s +++ "-->"
  | XUnknown s => "<" +++ s +++ ">"
  | XDecl v e s =>
      "<?xml " +++
      (if String.eqb v "" then "" else "version=" +++ String quot (PutString v +++ String quot " ")) +++
      (if String.eqb e "" then "" else "encoding=" +++ String quot (PutString e +++ String quot " ")) +++
      (if String.eqb s "" then "" else "standalone=" +++ String quot (PutString s +++ String quot " ")) +++
      "?>"
  | XElem name attrs children =>
      "<" +++ name +++ out_attrs attrs +++
      match children with
      | [] => " />"
      | _ => ">" +++ (fix go (l : list xnode) : string := match l with [] => "" | c :: t => out_node c +++ go t end) children +++
             "</" +++ name +++ ">"
      end
  end.
(** TiXmlDocument::StreamOut, tinyxml.cc 1052-1065: not beyond the first element *)
Fixpoint out_doc (l : list xnode) : string :=
  match l with
  | [] => ""
  | x :: t => out_node x +++ (if is_elem x then "" else out_doc t)
  end.

(** ** Reading *)

Record ist := mkI { i_tag : string; i_rest : string; i_good : bool }.
Inductive sres (A : Type) := SOk (x : A) | SFuel | SUB.
Arguments SOk {A} _.
Arguments SFuel {A}.
Arguments SUB {A}.
Definition isnul (c : ascii) : bool := byte c =? 0.

(** StreamWhiteSpace, tinyxmlparser.cc 367-380 *)
Fixpoint ws_in (t r : string) : ist :=
  match r with
  | EmptyString => mkI t "" false
  | String c r' => if negb (IsWhiteSpace c) || isnul c then mkI t r true else ws_in (String c t) r'
  end.
(** StreamTo, tinyxmlparser.cc 382-398, with what it returns *)
Fixpoint stream_to (ch : ascii) (t r : string) : ist * bool :=
  match r with
  | EmptyString => (mkI t "" false, false)
  | String c r' => if ceqb c ch then (mkI t r true, true) else if isnul c then (mkI t r true, false) else stream_to ch (String c t) r'
  end.
(** TiXmlText::StreamIn, tinyxmlparser.cc 1390-1408 *)
Fixpoint text_in (t r : string) : ist :=
  match r with
  | EmptyString => mkI t "" false
  | String c r' => if ceqb c ltc then mkI t r true else if isnul c then mkI t r true else text_in (String c t) r'
  end.
(** TiXmlUnknown::StreamIn 1206-1227, TiXmlDeclaration::StreamIn 1430-1450 and the first loop of TiXmlElement::StreamIn
    891-906; with true if '>' was read *)
Fixpoint to_gt (t r : string) : ist * bool :=
  match r with
  | EmptyString => (mkI t "" false, false)
  | String c r' =>
      if isnul c then (mkI t r' true, false)
      else if ceqb c gtc then (mkI (String c t) r' true, true) else to_gt (String c t) r'
  end.
(** TiXmlComment::StreamIn, tinyxmlparser.cc 1265-1289 *)
Definition two_dashes (t : string) : bool :=
  match t with String a (String b _) => ceqb a "-" && ceqb b "-" | _ => false end.
Fixpoint comment_in (t r : string) : ist :=
  match r with
  | EmptyString => mkI t "" false
  | String c r' =>
      if isnul c then mkI t r' true
      else if ceqb c gtc && two_dashes t then mkI (String c t) r' true else comment_in (String c t) r'
  end.
(** the loop of TiXmlElement::StreamIn that reads a tag up to '>', tinyxmlparser.cc 945-972: [p] is what it has read (last byte
    first); with whether '>' was found and whether it is a closing tag *)
Fixpoint tag_in (first closing : bool) (t p r : string) : ist * string * bool * bool :=
  match r with
  | EmptyString => (mkI t "" false, p, false, closing)
  | String c r' =>
      if isnul c then (mkI t r true, p, false, closing)
      else if ceqb c gtc then (mkI t r true, p, true, closing)
      else if negb first && negb (ceqb c ltc) && negb (IsWhiteSpace c)
           then tag_in true (ceqb c "/" || closing) (String c t) (String c p) r'
           else tag_in first closing (String c t) (String c p) r'
  end.
(** TiXmlNode::Identify, tinyxmlparser.cc 806-883 *)
Definition Identify (s : string) : option kind :=
  match SkipWhiteSpace EncUnknown (Some s) with
  | Some (String c t) => if ceqb c ltc then Some (identify (String c t)) else None
  | _ => None
  end.
(** TiXmlElement::StreamIn, tinyxmlparser.cc 887-1012, and its outer loop *)
Fixpoint elem_in (n : nat) (t r : string) {struct n} : sres ist :=
  match n with
  | O => SFuel
  | S n' =>
      match to_gt t r with
      | (i, false) => SOk i
      | (i, true) =>
          if Nat.ltb (String.length (i_tag i)) 3 then SOk i
          else match i_tag i with
               | String _ (String c _) => if ceqb c "/" then SOk i else content_in n' (i_tag i) (i_rest i)
               | _ => SOk i
               end
      end
  end
with content_in (n : nat) (t r : string) {struct n} : sres ist :=
  match n with
  | O => SFuel
  | S n' =>
      let i := ws_in t r in
      if negb (i_good i) then SOk i
      else match i_rest i with
           | EmptyString => SOk (mkI (i_tag i) "" false)
           | String c _ =>
               if negb (ceqb c ltc) then
                 let j := text_in (i_tag i) (i_rest i) in
                 if i_good j then content_in n' (i_tag j) (i_rest j) else SOk j
               else
                 match tag_in false false (i_tag i) "" (i_rest i) with
                 | (j, _, false, _) => SOk j
                 | (j, p, true, true) => SOk (fst (to_gt (i_tag j) (i_rest j)))
                 | (j, p, true, false) =>
                     match Identify (srev p "") with
                     | None => SOk j
                     | Some k =>
                         let next := fun i => if i_good i then content_in n' (i_tag i) (i_rest i) else SOk i in
                         match k with
                         | KElem => match elem_in n' (i_tag j) (i_rest j) with SOk i => next i | SFuel => SFuel | SUB => SUB end
                         | KComment => next (comment_in (i_tag j) (i_rest j))
                         | _ => next (fst (to_gt (i_tag j) (i_rest j)))
                         end
                     end
                 end
           end
  end.
(** the loop of TiXmlDocument::StreamIn that reads up to '>', tinyxmlparser.cc 646-656 *)
Fixpoint doc_tag_in (t p r : string) : ist * string :=
  match r with
  | EmptyString => (mkI t "" false, p)
  | String c r' => if ceqb c gtc then (mkI t r true, p) else if isnul c then (mkI t r' true, p) else doc_tag_in (String c t) (String c p) r'
  end.
(** TiXmlDocument::StreamIn, tinyxmlparser.cc 643-686 *)
Fixpoint doc_in (n : nat) (t r : string) : sres ist :=
  match n with
  | O => SFuel
  | S n' =>
      let (j, p) := doc_tag_in t "" r in
      if negb (i_good j) then SOk j
      else match Identify (srev p "") with
           | None => SOk j
           | Some KElem => elem_in n' (i_tag j) (i_rest j)
           | Some k =>
               let i := match k with KComment => comment_in (i_tag j) (i_rest j) | _ => fst (to_gt (i_tag j) (i_rest j)) end in
               if i_good i then doc_in n' (i_tag i) (i_rest i) else SOk i
           end
  end.
(** operator>>, tinyxml.cc 1460-1469, with 629-641 of tinyxmlparser.cc: the document, whether it has an error, what is left in the
    stream and whether that is still good *)
Definition stream_in (n : nat) (s : string) : sres (list xnode * bool * string * bool) :=
  let parse := fun i =>
    match parse_doc (srev (i_tag i) "") with
    | POk (l, er) => SOk (l, er, i_rest i, i_good i)
    | PFuel => SFuel
    | PUB => SUB
    end in
  match stream_to ltc "" s with
  | (i, false) => parse i
  | (i, true) => match doc_in n (i_tag i) (i_rest i) with SOk i => parse i | SFuel => SFuel | SUB => SUB end
  end.
