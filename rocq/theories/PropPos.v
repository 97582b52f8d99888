(** Property theorems for C88: the places of errors in files, and when loading returns.

    [tLoadFile k s] loads a file with the bytes [s]; the loop that keeps track of lines and columns may take [k] turns
    each time it is entered.  [TWait]: it was still going on then. *)
From Coq Require Import ZArith List String Ascii Bool Lia.
From Verif Require Import Base XmlModel XmlSpec XmlProofs XmlProofs2 PosModel PosSpec PosProofs PosProofs2 PosProofs3 PosProofs4 PosProofs5 PosProofs6 PosProofs7 PropXml.
Import ListNotations.
Open Scope string_scope.
Open Scope list_scope.
Open Scope Z_scope.

(** C88: what was loaded does not depend on the number of turns. *)
Theorem C88_turns : forall k k' s, (k <= k')%nat -> tLoadFile k s <> TWait -> tLoadFile k' s = tLoadFile k s.
Proof. intros k k' s L H. destruct (load_more k k' L s) as [E|E]; [contradiction | exact E]. Qed.
Print Assumptions C88_turns.

(** C88: if loading returns, keeping track of places changes nothing about the document, and loading succeeds exactly
    if there is something in the file and no error was set. *)
Theorem C88_same_document : forall k s,
  match tLoadFile k s with
  | TOk st doc => exists good, LoadFile s = POk (doc, good) /\ (good = true <-> s <> "" /\ errd st = None)
  | TUB => LoadFile s = PUB
  | TFuel => False
  | TWait => True
  end.
Proof.
  intros k s. assert (H := tLoadFile_sim k s). destruct (tLoadFile k s) as [st doc| | |]; auto.
  - eexists. split; [exact H|]. destruct (String.eqb_spec s "").
    + split; [discriminate | intros [G _]; contradiction].
    + destruct (errd st); cbn; split; try discriminate; auto. intros [_ G]. discriminate.
  - exact (C41_ends s H).
Qed.
Print Assumptions C88_same_document.

(** C88: loading returns if the byte EF is not among the last two bytes of the file. *)
Theorem C88_returns : forall s k, no_cut_ef s -> (String.length s < k)%nat -> tLoadFile k s <> TWait.
Proof. exact tLoadFile_ends. Qed.
Print Assumptions C88_returns.

(** C88: so a tidy file always gives a document. *)
Theorem C88_tidy : forall s k, tidy_file s -> (String.length s < k)%nat -> exists st doc, tLoadFile k s = TOk st doc.
Proof.
  intros s k H L. assert (R := C88_returns s k (tidy_no_cut s H) L). assert (S := C88_same_document k s).
  destruct (C41_tidy_defined s H) as [doc [good E]].
  destruct (tLoadFile k s) as [st d| | |]; [eauto | congruence | contradiction | congruence].
Qed.
Print Assumptions C88_tidy.

(** C88 (defect): for files that end, after an XML declaration, with the beginning of a tag, the byte EF and a slash,
    loading never returns. *)
Theorem C88_never_returns_refuted : forall n k, xml_name n -> ascii_text n ->
  tLoadFile k ("<?xml version=" +++ String """" ("1.0" +++ String """" ("?><" +++ n +++ String "239" "/"))) = TWait.
Proof. intros n k XN AN. exact (load_never k n XN AN). Qed.
Print Assumptions C88_never_returns_refuted.

Example never_returns_demo : xml_name "gear" /\ ascii_text "gear".
Proof.
  split.
  - exists "g"%char, "ear". split; [reflexivity|]. split; [right; left; vm_compute; intuition discriminate|].
    change (all_bytes name_byte "ear"). 
    repeat (apply all_bytes_cons; [left; right; left; vm_compute; intuition discriminate|]). apply all_bytes_nil.
  - repeat (apply all_bytes_cons; [vm_compute; reflexivity|]). apply all_bytes_nil.
Qed.

(** C88: in a text of 7-bit characters, the row and column of an error (counted from 1) are those of a place in the
    text, where there is what the kind of the error says; or they are 0, which is so only of the errors
    "reading Element value" and "document empty" and of texts that end with an equals sign in a tag. *)
Theorem C88_position : forall s k st doc x r c, ascii_text s -> (String.length s < k)%nat ->
  tLoadFile k s = TOk st doc -> errd st = Some (x, r, c) ->
  ErrorDesc st = errorString x /\
  ((ErrorRow st = 0 /\ ErrorCol st = 0 /\ no_place x s) \/
   exists pre suf, s = pre +++ suf /\ position pre = (ErrorRow st - 1, ErrorCol st - 1) /\ at_place x pre suf).
Proof.
  intros s k st doc x r c A L E EE. assert (H := tLoadFile_pos s k A L). rewrite E, EE in H. cbn [good_err] in H.
  unfold ErrorDesc, ErrorRow, ErrorCol. rewrite EE. split; [reflexivity|]. destruct H as [[-> [-> H]]|[pre [suf [E1 [E2 H]]]]].
  - left. auto.
  - right. exists pre, suf. split; [exact E1|]. split; [|exact H]. rewrite E2. f_equal; ring.
Qed.
Print Assumptions C88_position.

(** C88: the first error counts.  If the content of an element begins with an element without attributes, and what
    follows the tag of the latter is an end tag other than its own, the error is that end tag and its place the place
    of that end tag, whatever follows. *)
Theorem C88_first_error : forall a w b r k, xml_name a -> xml_name b -> spaces w -> (forall u, r <> b +++ ">" +++ u) ->
  let s := "<" +++ a +++ ">" +++ w +++ "<" +++ b +++ ">" +++ "</" +++ r in
  ascii_text s -> (String.length s < k)%nat ->
  exists st doc, tLoadFile k s = TOk st doc /\ ErrorDesc st = "Error reading end tag." /\
    (ErrorRow st - 1, ErrorCol st - 1) = position ("<" +++ a +++ ">" +++ w +++ "<" +++ b +++ ">").
Proof.
  intros a w b r k NA NB SW WR s TA TK. destruct (load_first k a w b r NA NB SW WR TA TK) as [st [doc [E H]]].
  exists st, doc. split; [exact E|]. unfold ErrorDesc, ErrorRow, ErrorCol. rewrite H. split; [reflexivity|].
  destruct (position _) as [i j]. cbn [fst snd]. f_equal; ring.
Qed.
Print Assumptions C88_first_error.

Example first_error_demo : xml_name "a" /\ xml_name "b" /\ spaces " " /\ (forall u, "a></a>" <> "b" +++ ">" +++ u) /\
  ascii_text ("<" +++ "a" +++ ">" +++ " " +++ "<" +++ "b" +++ ">" +++ "</" +++ "a></a>").
Proof.
  assert (N : forall c, start_byte (byte c) -> xml_name (String c "")).
  { intros c H. exists c, "". split; [reflexivity|]. split; [exact H | apply all_bytes_nil]. }
  split; [apply N; right; left; vm_compute; intuition discriminate|].
  split; [apply N; right; left; vm_compute; intuition discriminate|].
  split; [apply all_bytes_cons; [vm_compute; intuition discriminate | apply all_bytes_nil]|].
  split; [intros u; discriminate|].
  repeat (apply all_bytes_cons; [vm_compute; reflexivity|]). apply all_bytes_nil.
Qed.

Definition nl2 : string := String (chr 13) (String (chr 10) "").
Definition tab : string := String (chr 9) "".

(** a wrong end tag in line 3, behind a tabulator *)
Example position_demo : exists st doc,
  tLoadFile 100 ("<a>" +++ nl2 +++ "  <b>x" +++ nl2 +++ " " +++ tab +++ "</a>") = TOk st doc /\
  ErrorRow st = 3 /\ ErrorCol st = 5 /\ ErrorDesc st = "Error reading end tag.".
Proof. do 2 eexists. split; [vm_compute; reflexivity|]. vm_compute. auto. Qed.

(** a missing > *)
Example position_demo2 : exists st doc,
  tLoadFile 100 ("<a>" +++ nl2 +++ "  <b/ ></a>") = TOk st doc /\
  ErrorRow st = 2 /\ ErrorCol st = 6 /\ ErrorDesc st = "Error: empty tag.".
Proof. do 2 eexists. split; [vm_compute; reflexivity|]. vm_compute. auto. Qed.

(** a name without a value *)
Example position_demo3 : exists st doc,
  tLoadFile 100 ("<a>" +++ nl2 +++ "<b c></b></a>") = TOk st doc /\
  ErrorRow st = 2 /\ ErrorCol st = 5 /\ ErrorDesc st = "Error reading Attributes.".
Proof. do 2 eexists. split; [vm_compute; reflexivity|]. vm_compute. auto. Qed.

(** a file that ends too early has no place *)
Example position_demo4 : exists st doc,
  tLoadFile 100 ("<a>" +++ nl2 +++ "<b></b>") = TOk st doc /\
  ErrorRow st = 0 /\ ErrorCol st = 0 /\ ErrorDesc st = "Error reading Element value.".
Proof. do 2 eexists. split; [vm_compute; reflexivity|]. vm_compute. auto. Qed.
