(** C93: TinyXml documents and C++ streams. *)
From Coq Require Import ZArith List String Ascii Bool Lia.
From Verif Require Import Base XmlModel XmlSpec XmlProofs XmlProofs2 StreamModel StreamSpec StreamProofs StreamProofs5 PropXml.
Import ListNotations.
Open Scope Z_scope.

(** What operator<< writes operator>> reads back, up to the first element, and takes nothing else from the stream.  Nodes after the
    first element are not written. *)
Theorem C93_exchange : forall w pre root post rest n,
  all_bytes space_byte w -> (forall x, In x pre -> exists s, x = XComment s) -> is_elem root = true -> (forall x, In x (pre ++ [root]) -> streamable x) ->
  (String.length (w +++ out_doc (pre ++ root :: post) +++ rest) < n)%nat ->
  stream_in n (w +++ out_doc (pre ++ root :: post) +++ rest) = SOk (pre ++ [root], false, rest, true).
Proof. intros w pre root post rest n A C E S L. now apply exchange. Qed.
Print Assumptions C93_exchange.

(** Documents written one after the other are read one by one. *)
Theorem C93_many : forall ds s rest n, Forall one_root ds -> written ds s -> (String.length (s +++ rest) < n)%nat -> reads n (s +++ rest) ds rest.
Proof.
  intros ds s rest n F W. revert F. induction W as [|w l ds s A W IH]; intros F L; [constructor|]. inversion F as [|? ? (pre & root & E & EL & C & S) F']; subst.
  rewrite !sapp_assoc in L |- *. apply reads_doc with (s +++ rest).
  - apply exchange; auto.
  - apply IH; [exact F'|]. rewrite !slen_app in L. rewrite slen_app. lia.
Qed.
Print Assumptions C93_many.

(** The same for what Print writes, which goes on after the first element. *)
Theorem C93_print : forall w pre root post rest n,
  all_bytes space_byte w -> (forall x, In x pre -> exists s, x = XComment s) -> is_elem root = true -> (forall x, In x (pre ++ [root]) -> streamable x) ->
  (String.length (w +++ print_doc (pre ++ root :: post) +++ rest) < n)%nat ->
  stream_in n (w +++ print_doc (pre ++ root :: post) +++ rest) = SOk (pre ++ [root], false, nls +++ print_doc post +++ rest, true).
Proof. intros w pre root post rest n A C E S L. now apply exchange_print. Qed.
Print Assumptions C93_print.

(** White space, comments, declarations and other markup before the root are read with it, and nothing after its end. *)
Theorem C93_prolog : forall p root rest n, prolog p -> is_elem root = true -> streamable root -> (String.length (p +++ out_node root +++ rest) < n)%nat ->
  stream_in n (p +++ out_node root +++ rest) = match parse_doc (p +++ out_node root) with POk (l, er) => SOk (l, er, rest, true) | PFuel => SFuel | PUB => SUB end.
Proof. intros p root rest n P E [W S] L. apply (StreamProofs4.stream_prolog p root); auto. apply StreamProofs3.out_rend; auto. now apply elem_ntext. Qed.
Print Assumptions C93_prolog.

(** Whatever the input without a zero byte: reading ends; the document is what parsing gives for the bytes taken from the stream, and the others are left. *)
Theorem C93_nothing_lost : forall n s l er rest good, no_nul s -> stream_in n s = SOk (l, er, rest, good) -> exists u, s = u +++ rest /\ parse_doc u = POk (l, er).
Proof. exact nothing_lost. Qed.
Print Assumptions C93_nothing_lost.
Theorem C93_ends : forall n s, no_nul s -> (String.length s < n)%nat -> stream_in n s <> SFuel.
Proof. exact reading_ends. Qed.
Print Assumptions C93_ends.
(** A result does not depend on the number of turns allowed. *)
Theorem C93_turns : forall n m s, (n <= m)%nat -> stream_in n s = SFuel \/ stream_in m s = stream_in n s.
Proof. intros n m s L. destruct (stream_in_shape n s) as [H|H]; [now left|right; now apply H]. Qed.
Print Assumptions C93_turns.

(** With a zero byte among the content of an element reading never ends. *)
Theorem C93_nul_refuted : forall k n w rest, xml_name n -> all_bytes space_byte w -> stream_in k ("<" +++ n +++ ">" +++ w +++ String "000"%char rest) = SFuel.
Proof. exact nul_never. Qed.
Print Assumptions C93_nul_refuted.

(** A comment that starts with ">" before the root: LoadFile reads what Print wrote, but operator>> stops within the comment that operator<<
    wrote and parsing that reads beyond the end of the text. *)
Theorem C93_comment_refuted : let l := [XComment ">x"; XElem "b" [] []] in
  LoadFile (print_doc l) = POk (l, true) /\ out_doc l = "<!-->x--><b />"%string /\ forall k, (4 <= k)%nat -> stream_in k (out_doc l) = SUB.
Proof.
  cbv zeta. split; [vm_compute; reflexivity|]. split; [vm_compute; reflexivity|]. intros k L.
  assert (E : stream_in 4 (out_doc [XComment ">x"; XElem "b" [] []]) = SUB) by (vm_compute; reflexivity).
  destruct (C93_turns 4 k (out_doc [XComment ">x"; XElem "b" [] []]) L) as [H|H]; congruence.
Qed.
Print Assumptions C93_comment_refuted.

(** ** cases *)
Lemma safe s : has_char ">" s = false -> ~ contains "-->" ("--" +++ s).
Proof.
  intros H (a & b & E). assert (D : contains_byte ">" ("--" +++ s)) by (exists (a +++ "--"), b; rewrite E, sapp_assoc; reflexivity).
  apply has_char_iff in D. cbn in D. change (has_char ">" s = true) in D. congruence.
Qed.
Example streamable_case : streamable ex_doc /\ streamable (XComment " one - two ").
Proof.
  split; split; [apply doc_case| | |constructor; now apply safe].
  - constructor. intros x [<-|[<-|[<-|[]]]].
    + constructor. intros x [].
    + constructor. now apply safe.
    + constructor. intros x [<-|[]]. constructor.
  - assert (B : forall s c, contains_byte c s -> has_char c s = true) by (intros s c; apply has_char_iff). constructor.
    + intros c C Z. replace c with (chr 0) in C by (apply byte_inj; rewrite Z; reflexivity). apply B in C. discriminate.
    + intros C. apply B in C. discriminate.
    + intros (a & b & E). assert (D : contains_byte ">" " one - two ") by (exists (a +++ "--"), b; rewrite E, sapp_assoc; reflexivity). apply B in D. discriminate.
Qed.
Example root_case : one_root [XComment " one - two "; ex_doc] /\ Forall one_root [[XComment " one - two "; ex_doc]; [ex_doc]].
Proof.
  destruct streamable_case as [S1 S2].
  assert (H1 : one_root [XComment " one - two "; ex_doc]).
  { exists [XComment " one - two "], ex_doc. repeat split; [intros x [<-|[]]; eauto|destruct H as [<-|[<-|[]]]; [apply S2|apply S1]|destruct H as [<-|[<-|[]]]; [apply S2|apply S1]]. }
  split; [exact H1|]. constructor; [exact H1|]. constructor; [|constructor]. exists [], ex_doc. repeat split; [intros x []|destruct H as [<-|[]]; apply S1|destruct H as [<-|[]]; apply S1].
Qed.
Example exchange_case : out_doc [XComment " one - two "; ex_doc; XComment "lost"] =
  "<!-- one - two --><gear><detector name=""TPC"" /><!--Gear - Document--><name>a b</name></gear>"%string.
Proof. vm_compute. reflexivity. Qed.
Example prolog_case : prolog ("<?xml version='1.0'?> <!-- x --><!DOCTYPE gear>")%string /\
  parse_doc ("<?xml version='1.0'?> <!-- x --><!DOCTYPE gear>" +++ out_node ex_doc) = POk ([XDecl "1.0" "" ""; XComment " x "; XUnknown "!DOCTYPE gear"; ex_doc], false).
Proof.
  assert (B : forall s c, contains_byte c s -> has_char c s = true) by (intros s c; apply has_char_iff).
  assert (NN : forall s, has_char (chr 0) s = false -> no_nul s).
  { intros s H c C Z. replace c with (chr 0) in C by (apply byte_inj; rewrite Z; reflexivity). apply B in C. congruence. }
  assert (NG : forall s, has_char ">" s = false -> ~ contains_byte ">"%char s) by (intros s H C; apply B in C; congruence).
  split; [|vm_compute; reflexivity].
  apply (P_question "xml version='1.0'?" " <!-- x --><!DOCTYPE gear>"); [now apply NN|now apply NG|]. apply P_space; [cbv; now right|].
  apply (P_comment " x " "<!DOCTYPE gear>"); [now apply NN|now apply safe|]. apply (P_exclamation "DOCTYPE gear" ""); [now apply NN|now apply NG|discriminate|constructor].
Qed.
Example any_case : no_nul "hello <a>x</a> more" /\ stream_in 30 "hello <a>x</a> more" = SOk ([], true, " more"%string, true) /\
  stream_in 30 " <a>x</a> more" = SOk ([XElem "a" [] [XText "x"]], false, " more"%string, true).
Proof.
  split; [|split; vm_compute; reflexivity]. intros c C Z. replace c with (chr 0) in C by (apply byte_inj; rewrite Z; reflexivity). apply has_char_iff in C. discriminate.
Qed.
