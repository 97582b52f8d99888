(** Property theorems for C31, C41 and C65: the text of the files *)
From Coq Require Import ZArith List String Ascii Bool Lia.
From Verif Require Import Base XmlModel XmlSpec XmlProofs XmlProofs2 XmlProofs3.
Import ListNotations.
Open Scope Z_scope.

(** Names and values of the examples: all five special characters, a control byte and a high byte. *)
Example names_case : xml_name "gear" /\ xml_name "detector" /\ xml_name "name" /\ xml_name "value".
Proof.
  repeat split; (eexists; eexists; split; [reflexivity|]; split; [unfold start_byte; vm_compute; intuition discriminate|]);
  intros d D; repeat (apply contains_byte_inv in D; destruct D as [->|D]; [unfold name_byte, start_byte; vm_compute; intuition discriminate|]);
  destruct (contains_byte_nil _ D).
Qed.
Definition ex_value : string := "a""b'c<d>&#y" +++ String (chr 7) (String (chr 200) "  ").
Example value_case : no_nul ex_value /\ charref_free ex_value.
Proof.
  split.
  - intros c C. repeat (apply contains_byte_inv in C; destruct C as [->|C]; [vm_compute; discriminate|]). destruct (contains_byte_nil _ C).
  - intros [a [b E]]. unfold ex_value in E. cbn [String.append] in E.
    do 15 (destruct a as [|? a]; cbn [String.append] in E; [discriminate|]; injection E as _ E). destruct a; discriminate.
Qed.
Example written_case : print_doc [XElem "gear" [("name", ex_value)] []] =
  "<gear name='a&quot;b&apos;c&lt;d&gt;&amp;#y&#x07;" +++ String (chr 200) ("  ' />" +++ nls).
Proof. vm_compute. reflexivity. Qed.
(** A document with children, comments and text. *)
Definition ex_doc : xnode := XElem "gear" []
  [XElem "detector" [("name", "TPC")] []; XComment "Gear - Document"; XElem "name" [] [XText "a b"]].
Example doc_case : writable ex_doc /\ forall s, ex_doc <> XText s.
Proof.
  split; [|discriminate]. destruct names_case as [N1 [N2 [N3 N4]]].
  assert (B : forall s c, contains_byte c s -> has_char c s = true) by (intros s c; apply has_char_iff).
  assert (NN : forall s, has_char (chr 0) s = false -> no_nul s).
  { intros s H c C Z. replace c with (chr 0) in C by (apply byte_inj; rewrite Z; reflexivity). apply B in C. congruence. }
  assert (NC : forall s, has_char "&" s = false -> charref_free s).
  { intros s H [a [b C]]. assert (D : contains_byte "&" s) by (exists a, ("#x" +++ b); exact C). apply B in D. congruence. }
  assert (ND : forall s, has_char ">" s = false -> ~ contains "-->" s).
  { intros s H [a [b C]]. assert (D : contains_byte ">" s) by (exists (a +++ "--"), b; rewrite C, sapp_assoc; reflexivity). apply B in D. congruence. }
  constructor; auto.
  - intros k v [].
  - constructor.
  - intros x [<-|[<-|[<-|[]]]].
    + constructor; auto.
      * intros k v [E|[]]. injection E as <- <-. split; [exact N3|]. split; [apply NN | apply NC]; reflexivity.
      * cbn. constructor; [intros [] | constructor].
      * intros x [].
      * exact I.
    + constructor; [apply NN; reflexivity | intros C; apply B in C; discriminate | apply ND; reflexivity].
    + constructor; auto.
      * intros k v [].
      * constructor.
      * intros x [<-|[]]. constructor; [apply NN; reflexivity | apply NC; reflexivity|].
        split; [discriminate|]. split.
        { intros t E. do 3 (destruct t as [|? t]; cbn in E; [discriminate|]; injection E as _ E). destruct t; discriminate. }
        split.
        { intros [a [b E]]. do 3 (destruct a as [|? a]; cbn in E; [discriminate|]; injection E as _ E). destruct a; discriminate. }
        exists "a"%char. split; [apply contains_byte_here|]. vm_compute. intuition discriminate.
      * exact I.
  - exact I.
Qed.
(** A tidy file that no program would write: blanks around the equal sign, text, a comment, garbage. *)
Example tidy_case : tidy_file "<a b = '1'>x<!--y--><d/></a> z".
Proof.
  assert (Q0 : quotes_closed "") by (intros [|] w q b E; discriminate).
  assert (Q1 : forall c s, c <> "="%char -> quotes_closed s -> quotes_closed (String c s)).
  { intros c s N H [|a0 a] w q b E A; cbn in E; [congruence|]. injection E as _ E. eapply H; eauto. }
  assert (C0 : comments_closed "") by (intros [|] b E; discriminate).
  assert (C1 : forall c s, (forall b, String c s = "<!--" +++ b -> contains "-->" b) -> comments_closed s -> comments_closed (String c s)).
  { intros c s N H [|a0 a] b E; cbn in E; [apply N; exact E|]. injection E as _ E. eapply H; eauto. }
  assert (R1 : forall s, has_char "&" s = false -> references_complete s).
  { intros s H a b E. assert (D : contains_byte "&" s) by (exists a, ("#" +++ b); exact E).
    apply has_char_iff in D. congruence. }
  assert (U1 : forall c s, byte c < 194 -> utf8_complete s -> utf8_complete (String c s)).
  { intros c s N H [|a0 a] d b E; cbn in E.
    - injection E as -> _. repeat split; intros; lia.
    - injection E as _ E. eapply H; eauto. }
  assert (U0 : utf8_complete "") by (intros [|] d b E; discriminate).
  split; [|split; [|split]].
  - do 5 (apply Q1; [discriminate|]).
    intros [|a0 a] w q b E A Qq; cbn in E.
    + injection E as E. destruct w as [|w0 w]; cbn in E; injection E as ? E; subst; [destruct Qq; discriminate|].
      destruct w as [|w1 w]; cbn in E; injection E as ? E; subst; [exists "1"%string, ">x<!--y--><d/></a> z"%string; reflexivity|].
      exfalso. specialize (A "'"%char (contains_byte_cons _ _ _ (contains_byte_here _ _))). vm_compute in A. intuition congruence.
    + injection E as _ E. assert (G : quotes_closed " '1'>x<!--y--><d/></a> z") by (repeat first [exact Q0 | apply Q1; [discriminate|]]).
      eapply G; eauto.
  - do 12 (apply C1; [intros b E; discriminate|]).
    apply C1; [intros b E; cbn in E; injection E as <-; exists "y"%string, "<d/></a> z"%string; reflexivity|].
    repeat first [exact C0 | apply C1; [intros b E; discriminate|]].
  - apply R1. reflexivity.
  - repeat first [exact U0 | apply U1; [vm_compute; reflexivity|]].
Qed.
Example cut_value_case : ~ contains_byte amp "TP" /\ ~ contains_byte quot "TP" /\ ~ contains "-->" " Gear" /\ ~ contains_byte semi "x1 z".
Proof.
  repeat split; try (intros C; apply has_char_iff in C; discriminate).
  intros [a [b E]]. do 5 (destruct a as [|? a]; cbn in E; [discriminate|]; injection E as _ E). destruct a; discriminate.
Qed.
Example stray_case : forall t, In t ["#"; "amp;"; "lt;"; "gt;"; "quot;"; "apos;"]%string -> ~ exists z, "B"%string = t +++ z.
Proof. intros t T [z Z]. repeat (destruct T as [<-|T]; [discriminate|]). destruct T. Qed.
Example hex_case : all_bytes hex_byte "3c" /\ "3c"%string <> ""%string.
Proof.
  split; [|discriminate]. intros c C. repeat (apply contains_byte_inv in C; destruct C as [->|C]; [unfold hex_byte; vm_compute; intuition discriminate|]).
  destruct (contains_byte_nil _ C).
Qed.
(** The document of [doc_case] cut before its second child. *)
Example cut_case : exists s t, print_doc [ex_doc] = s +++ t /\
  LoadFile s = POk ([XElem "gear" [] [XElem "detector" [("name", "TPC")] []]], true).
Proof.
  exists ("<gear>" +++ nls +++ "    <detector name=""TPC"" />" +++ nls). eexists. split; [reflexivity|]. vm_compute. reflexivity.
Qed.

(** C31: the value given to SetAttribute is found, byte for byte, in the document read from the file the
    element was written to, and no other attribute changes. *)
Theorem C31_attribute_kept : forall n k v a, xml_name n -> xml_name k -> no_nul v -> charref_free v ->
  (forall k' v', In (k', v') a -> xml_name k' /\ no_nul v' /\ charref_free v') -> NoDup (map fst a) ->
  exists a', LoadFile (print_doc [XElem n (SetAttribute k v a) []]) = POk ([XElem n a' []], true) /\
    Attribute k a' = Some v /\
    forall k', k' <> k -> Attribute k' a' = Attribute k' a.
Proof. exact attribute_kept. Qed.
Print Assumptions C31_attribute_kept.

(** C31: every document of elements, comments and text (white space in its normal form) comes back unchanged. *)
Theorem C31_document_kept : forall l, l <> [] ->
  (forall x, In x l -> writable x /\ forall s, x <> XText s) ->
  LoadFile (print_doc l) = POk (l, true).
Proof. exact document_kept. Qed.
Print Assumptions C31_document_kept.

(** C31 (defect): every value with a hexadecimal character reference in it comes back with a single character
    in its place. *)
Theorem C31_reference_refuted : forall n k v h r, xml_name n -> xml_name k ->
  no_nul v -> no_nul r -> charref_free v -> charref_free r -> h <> ""%string -> all_bytes hex_byte h ->
  let w := v +++ "&#x" +++ h +++ ";" +++ r in
  exists c, v +++ String c r <> w /\
    LoadFile (print_doc [XElem n [(k, w)] []]) = POk ([XElem n [(k, v +++ String c r)] []], true).
Proof. exact reference_not_kept. Qed.
Print Assumptions C31_reference_refuted.

(** C41: loading ends for every file. *)
Theorem C41_ends : forall s, LoadFile s <> PFuel.
Proof. exact load_terminates. Qed.
Print Assumptions C41_ends.

(** C41: a file in which every quote, comment, character reference and multi-byte character is complete gives a
    document or an error, whatever else is wrong with it. *)
Theorem C41_tidy_defined : forall s, tidy_file s -> exists doc good, LoadFile s = POk (doc, good).
Proof. exact load_tidy. Qed.
Print Assumptions C41_tidy_defined.

(** C41 (defect): a file that ends inside a quoted value makes the parser read behind its end. *)
Theorem C41_open_quote_refuted : forall n k q v, xml_name n -> xml_name k -> q = quot \/ q = apos ->
  ~ contains_byte amp v -> ~ contains_byte q v ->
  LoadFile ("<" +++ n +++ " " +++ k +++ "=" +++ String q v) = PUB.
Proof. exact open_quote_undefined. Qed.
Print Assumptions C41_open_quote_refuted.

(** C41 (defect): so does a file that ends inside a comment. *)
Theorem C41_open_comment_refuted : forall v, ~ contains_byte amp v -> ~ contains "-->" v ->
  LoadFile ("<!--" +++ v) = PUB.
Proof. exact open_comment_undefined. Qed.
Print Assumptions C41_open_comment_refuted.

(** C41 (defect): so does a value with a character reference that is not closed. *)
Theorem C41_open_reference_refuted : forall n k q v r, xml_name n -> xml_name k -> q = quot \/ q = apos ->
  ~ contains_byte amp v -> ~ contains_byte q v -> ~ contains_byte semi r -> r <> ""%string ->
  LoadFile ("<" +++ n +++ " " +++ k +++ "=" +++ String q (v +++ "&#" +++ r)) = PUB.
Proof. exact broken_reference_undefined. Qed.
Print Assumptions C41_open_reference_refuted.

(** C41 (defect): an ampersand that begins no reference is dropped from the value without an error. *)
Theorem C41_ampersand_dropped : forall n k q v r, xml_name n -> xml_name k -> q = quot \/ q = apos ->
  ~ contains_byte amp v -> ~ contains_byte q v -> ~ contains_byte amp r -> ~ contains_byte q r ->
  (forall t, In t ["#"; "amp;"; "lt;"; "gt;"; "quot;"; "apos;"]%string -> ~ exists z, r = t +++ z) ->
  LoadFile ("<" +++ n +++ " " +++ k +++ "=" +++ String q (v +++ "&" +++ r +++ String q (" />" +++ nls))) =
    POk ([XElem n [(k, v +++ r)] []], true).
Proof. exact stray_ampersand_dropped. Qed.
Print Assumptions C41_ampersand_dropped.

(** C65 (defect): for every document whose root has children, and any number of its first children, there is a
    cut of the saved file that loads without an error as a document with just these children. *)
Theorem C65_cut_refuted : forall n a ch1 ch2, writable (XElem n a (ch1 ++ ch2)) -> (ch1 ++ ch2)%list <> [] ->
  (forall s, ~ In (XText s) (ch1 ++ ch2)) ->
  exists s t, print_doc [XElem n a (ch1 ++ ch2)] = s +++ t /\ t <> ""%string /\
    LoadFile s = POk ([XElem n a ch1], true).
Proof. exact cut_file_accepted. Qed.
Print Assumptions C65_cut_refuted.

(** C65 (defect): when an attribute of the root is repeated, everything behind it is ignored
    without an error. *)
Theorem C65_repeated_attribute_refuted : forall n k v w r, xml_name n -> xml_name k ->
  no_nul v -> no_nul w -> charref_free v -> charref_free w -> r <> ""%string ->
  LoadFile ("<" +++ n +++ " " +++ print_attr (k, v) +++ " " +++ print_attr (k, w) +++ r) =
    POk ([XElem n [(k, w)] []], true).
Proof. exact repeated_attribute_root. Qed.
Print Assumptions C65_repeated_attribute_refuted.
