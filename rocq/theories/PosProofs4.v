(** The places of errors: triples for the parsers *)
From Coq Require Import ZArith List String Ascii Bool Lia.
From Verif Require Import Base XmlModel XmlSpec XmlProofs XmlProofs2 PosModel PosSpec PosProofs PosProofs3.
Import ListNotations.
Open Scope string_scope.
Open Scope list_scope.
Open Scope Z_scope.

Section Positions.
Variable T : string.
Variable k : nat.
Hypothesis TA : ascii_text T.
Hypothesis TK : (String.length T < k)%nat.
Notation inv := (inv T).

Lemma inv_ascii : forall s st, inv (Some s) st -> ascii_text s /\ suffix s T.
Proof. intros s st [_ H]. apply okst_in in H. split; [eapply asc_suffix; eauto | exact H]. Qed.

(** use a fact about the text that the state gives *)
Lemma h_fact : forall A s (m : M A) Q, (ascii_text s -> suffix s T -> holds (inv (Some s)) m Q) -> holds (inv (Some s)) m Q.
Proof. intros A s m Q H st HP. destruct (inv_ascii _ _ HP) as [H1 H2]. exact (H H1 H2 st HP). Qed.

Lemma h_none : forall A (a : A) p, holds (fun st => inv p st /\ errd st <> None) (ret a) (fun _ st => inv None st /\ errd st <> None).
Proof. intros A a p. apply h_ret. intros st [H1 H2]. split; [eapply inv_none; exact H1 | exact H2]. Qed.

Definition attr_shape (s : string) : Prop := exists n w r, s = n +++ w +++ "=" +++ r /\ xml_name n /\ spaces w.

Lemma tparse_attr_pos : forall doc e c t, IsWhiteSpace c = false ->
  holds (inv (Some (String c t))) (tparse_attr k doc e (Some (String c t))) (fun '(_, _, q) st =>
    inv (if q then Some (String c t) else None) st /\ psuf q (String c t) /\ (doc = true -> q = None -> errd st <> None) /\ (q = Some "" -> attr_shape (String c t))).
Proof.
  intros doc e c t W. apply h_fact. intros A SU. unfold tparse_attr. rewrite skip_id_ascii by assumption.
  set (s := String c t) in *.
  eapply h_bind; [apply h_stamp; [exact TA | exact TK | apply suffix_refl]|]. intros []; cbv beta.
  assert (FAIL : forall name now, suffix now s -> (forall pre, T = pre +++ now -> at_place ErrAttributes pre now) ->
    holds (inv (Some s))
      ((if doc then SetError k ErrAttributes e (Some now) else ret tt) ;;; ret (name, "", None : ptr))
      (fun '((_, _, q) : string * string * ptr) st => inv (if q then Some s else None) st /\ psuf q s /\ (doc = true -> q = None -> errd st <> None) /\ (q = Some "" -> attr_shape s))).
  { intros name now S AP. destruct doc.
    - eapply h_bind; [apply h_err; [exact TA | exact TK | exact S | exact AP]|]. intros []; cbv beta. apply h_ret.
      intros st [H1 H2]. split; [eapply inv_none; exact H1|]. split; [exact I|]. split; [auto | discriminate].
    - eapply h_bind with (Q := fun _ => inv (Some s)); [apply h_ret; auto|]. intros []; cbv beta. apply h_ret. intros st H.
      split; [eapply inv_none; exact H|]. split; [exact I|]. split; discriminate. }
  destruct (IsAlpha c || ceqb c "_") eqn:AL.
  2:{ unfold ReadName, s at 2. rewrite AL. apply FAIL; [apply suffix_refl|]. intros pre _. right. right. left.
      exists c, t. split; [reflexivity|]. intros SB. rewrite start_letter in AL by exact SB. discriminate. }
  destruct (ReadName_spec c t (letter_start c AL)) as [n [r [RN [E XN]]]].
  change (String c t) with s in RN, E. rewrite RN.
  destruct r as [|c1 s1].
  { apply FAIL; [apply suffix_refl|]. intros pre _. right. left. rewrite sapp_nil_r in E. rewrite E. exact XN. }
  assert (S1 : suffix (String c1 s1) s) by (exists n; exact E).
  assert (A1 := asc_suffix _ _ A S1). rewrite (skip_ascii e c1 s1 A1).
  destruct (skip_ws_spec (String c1 s1)) as [w [EW SW]].
  destruct (skip_ws (String c1 s1)) as [|c2 s2] eqn:E2.
  { apply FAIL; [exists s; rewrite sapp_nil_r; reflexivity|]. intros pre _. left. apply all_bytes_nil. }
  assert (S2 : suffix (String c2 s2) s) by (eapply suffix_trans; [exists w; exact EW | exact S1]).
  destruct (ceqb c2 "=") eqn:CE.
  2:{ apply FAIL; [exact S2|]. intros pre EP. right. right. right. apply ceqb_false in CE.
      destruct SU as [a SU]. exists c2, s2, a, n, w. split; [reflexivity|]. split; [exact CE|]. split; [|auto].
      apply (sapp_cancel_r (String c2 s2)). rewrite <- EP, SU, E, EW, !sapp_assoc. reflexivity. }
  apply ceqb_true in CE. subst c2.
  assert (SH : forall r, s2 = r -> attr_shape s).
  { intros r <-. exists n, w, s2. rewrite E, EW. auto. }
  destruct s2 as [|d0 s20].
  { cbn [SkipWhiteSpace]. destruct doc.
    - eapply h_bind; [apply h_err0; destruct SU as [a SU]; destruct S2 as [b S2]; exists (a +++ b); rewrite SU, S2, sapp_assoc; reflexivity|].
      intros []; cbv beta; apply h_ret.
      intros st [H1 H2]. split; [eapply inv_none; exact H1|]. split; [exact I|]. split; [auto | discriminate].
    - eapply h_bind with (Q := fun _ => inv (Some s)); [apply h_ret; auto|]. intros []; cbv beta. apply h_ret. intros st H.
      split; [eapply inv_none; exact H|]. split; [exact I|]. split; discriminate. }
  assert (S3 : suffix (String d0 s20) s) by (eapply suffix_uncons; exact S2).
  rewrite (skip_ascii e d0 s20 (asc_suffix _ _ A S3)).
  destruct (skip_ws_spec (String d0 s20)) as [w2 [EW2 SW2]].
  destruct (skip_ws (String d0 s20)) as [|d s3] eqn:E3.
  { apply FAIL; [exists s; rewrite sapp_nil_r; reflexivity|]. intros pre _. left. apply all_bytes_nil. }
  assert (S4 : suffix (String d s3) s) by (eapply suffix_trans; [exists w2; exact EW2 | exact S3]).
  destruct (ceqb d apos || ceqb d quot).
  - eapply h_bind with (Q := fun '(v, r) st => inv (Some s) st /\ psuf r s /\ r <> None).
    + apply h_lift. intros [v r] st RQ HI.
      assert (X : psuf r s /\ r <> None).
      { assert (RK := read_keep_ok (S (String.length s3)) e (String d "") (Some s3) T). cbn [plen] in RK.
        unfold read_quoted, ReadText in RQ. cbn [plen] in RQ.
        specialize (RK ltac:(lia) ltac:(eapply suffix_trans; [eapply suffix_uncons; exact S4 | exact SU])).
        destruct (read_keep (S (String.length s3)) e (String d "") (Some s3)) as [[v1 st1]| |]; try discriminate.
        cbn [okp pbind] in *. destruct st1 as [r1| |]; try discriminate. injection RQ as <- <-. split; [|discriminate].
        destruct RK as [[a RK] _]. cbn. eapply suffix_trans; [|exact S4]. apply suffix_cons.
        eapply suffix_trans; [|exists a; exact RK]. apply suffix_app. }
      destruct X as [X1 X2]. auto.
    + intros [v r]. apply h_ret. intros st [H1 [H2 H3]]. destruct r as [r|]; [|congruence]. split; [exact H1|]. split; [exact H2|].
      split; [discriminate|]. intros _. eapply SH. reflexivity.
  - destruct (read_bare (String d s3)) as [v r] eqn:RB. apply read_bare_split in RB.
    apply h_ret. intros st H. assert (X : suffix r s) by (eapply suffix_trans; [exists v; exact RB | exact S4]).
    split; [exact H|]. split; [exact X|]. split; [discriminate|]. intros _. eapply SH. reflexivity.
Qed.

Lemma tparse_attrs_pos : forall n e acc c t,
  holds (inv (Some (String c t))) (tparse_attrs k n e acc (Some (String c t))) (fun '(_, en) st =>
    match en with AEmpty r | AOpen r => inv (Some r) st | AFail _ => inv None st end).
Proof.
  induction n; intros e acc c t; cbn [tparse_attrs]; [apply h_fuel|].
  apply h_fact. intros A SU. rewrite (skip_ascii e c t A).
  destruct (skip_ws_spec (String c t)) as [w [EW SW]].
  destruct (skip_ws (String c t)) as [|c1 t1] eqn:E1.
  { eapply h_bind; [apply h_err; [exact TA | exact TK | apply suffix_refl|]|].
    - intros pre _. left. rewrite EW, sapp_nil_r. exact SW.
    - intros []; cbv beta; apply h_ret. intros st [H _]. eapply inv_none. exact H. }
  apply skip_ws_head in E1.
  assert (S1 : suffix (String c1 t1) (String c t)) by (exists w; exact EW).
  assert (SL : forall now, suffix now t1 -> now = t1 -> (c1 = "/"%char) -> forall pre, T = pre +++ now -> exists a, pre = a +++ "/").
  { intros now _ -> -> pre EP. destruct SU as [a SU]. exists (a +++ w).
    apply (sapp_cancel_r t1). rewrite <- EP, SU, EW, !sapp_assoc. reflexivity. }
  destruct (ceqb c1 "/") eqn:C1.
  - apply ceqb_true in C1. destruct t1 as [|d r].
    + eapply h_bind; [apply h_err; [exact TA | exact TK | exact (suffix_uncons _ _ _ S1)|]|].
      * intros pre EP. split; [|discriminate]. exact (SL "" (suffix_refl _) eq_refl C1 pre EP).
      * intros []; cbv beta; apply h_ret. intros st [H _]. eapply inv_none. exact H.
    + destruct (ceqb d gtc) eqn:D.
      * apply h_ret. intros st H. eapply inv_suffix; [exact H|]. do 2 eapply suffix_uncons. exact S1.
      * eapply h_bind; [apply h_err; [exact TA | exact TK | exact (suffix_uncons _ _ _ S1)|]|].
        -- intros pre EP. split; [exact (SL _ (suffix_refl _) eq_refl C1 pre EP)|]. intros r' X. injection X as X _.
           apply ceqb_false in D. apply D. exact X.
        -- intros []; cbv beta; apply h_ret. intros st [H _]. eapply inv_none. exact H.
  - destruct (ceqb c1 gtc).
    + apply h_ret. intros st H. eapply inv_suffix; [exact H|]. eapply suffix_uncons. exact S1.
    + eapply h_bind.
      * eapply h_pre; [|apply (tparse_attr_pos true e c1 t1 E1)]. intros st H. eapply inv_suffix; eauto.
      * intros [[name v] q]. destruct q as [[|d r]|].
        -- intros st [H1 [H2 [H3 H4]]]. specialize (H4 eq_refl). revert st H1 H2 H3.
           assert (X : holds (inv (Some (String c1 t1))) (SetError k ErrElement e (Some (String c1 t1)) ;;; ret (acc, AFail true))
             (fun '(_, en) st => match en with AEmpty r | AOpen r => inv (Some r) st | AFail _ => inv None st end)).
           { eapply h_bind; [apply h_err; [exact TA | exact TK | apply suffix_refl | intros pre _; exact H4]|].
             intros []; cbv beta; apply h_ret. intros st [H _]. eapply inv_none. exact H. }
           intros st H1 _ _. apply X. exact H1.
        -- destruct (find_attr (c_str name) acc).
           ++ apply h_ret. intros st [H _]. eapply inv_none. exact H.
           ++ eapply h_pre; [|apply IHn]. intros st [H1 [H2 _]]. eapply inv_suffix; [exact H1 | exact H2].
        -- intros st [H1 [_ [H3 _]]]. specialize (H3 eq_refl eq_refl). unfold mbind, SetError.
           destruct (errd st) as [er|] eqn:EE; [|congruence]. exact H1.
Qed.

Definition Pnode {X} : X * ptr -> pst -> Prop := fun '(_, q) st => inv q st.

Lemma tdecl_loop_pos : forall n e v c a p, holds (inv p) (tdecl_loop k n e v c a p) Pnode.
Proof.
  induction n; intros e v c a p; cbn [tdecl_loop]; [apply h_fuel|].
  destruct p as [[|d t]|]; try (apply h_ret; intros st H; eapply inv_none; exact H).
  destruct (ceqb d gtc).
  { apply h_ret. intros st H. eapply inv_suffix; [exact H | apply suffix_tail]. }
  apply h_fact. intros A SU. rewrite (skip_ascii e d t A).
  destruct (skip_ws_spec (String d t)) as [w [EW SW]]. set (s1 := skip_ws (String d t)) in *.
  assert (S1 : suffix s1 (String d t)) by (exists w; exact EW).
  assert (AT : s1 <> "" -> forall (f : string -> ptr -> M (xnode * ptr)), (forall x q, holds (inv q) (f x q) Pnode) ->
    holds (inv (Some (String d t))) ('(_, w, q) <- tparse_attr k false e (Some s1) ;; f w q) Pnode).
  { intros NE f H. destruct s1 as [|c1 t1] eqn:E1; [congruence|]. apply skip_ws_head in E1.
    eapply h_bind.
    - eapply h_pre; [|apply (tparse_attr_pos false e c1 t1 E1)]. intros st HI. eapply inv_suffix; eauto.
    - intros [[nm w2] q]. eapply h_pre; [|apply H]. intros st [H1 [H2 _]].
      destruct q as [z|]; [eapply inv_suffix; [exact H1 | exact H2] | exact H1]. }
  assert (NN : forall u, u <> "" -> StringEqualNoCase s1 u = true -> s1 <> "").
  { intros [|x u] N H E; [congruence|]. rewrite E in H. discriminate. }
  destruct (StringEqualNoCase s1 "version") eqn:V1.
  { apply (AT (NN "version" ltac:(discriminate) V1) (fun w q => tdecl_loop k n e (c_str w) c a q)). intros. apply IHn. }
  destruct (StringEqualNoCase s1 "encoding") eqn:V2.
  { apply (AT (NN "encoding" ltac:(discriminate) V2) (fun w q => tdecl_loop k n e v (c_str w) a q)). intros. apply IHn. }
  destruct (StringEqualNoCase s1 "standalone") eqn:V3.
  { apply (AT (NN "standalone" ltac:(discriminate) V3) (fun w q => tdecl_loop k n e v c (c_str w) q)). intros. apply IHn. }
  eapply h_pre; [|apply IHn]. intros st H. eapply inv_suffix; [exact H|].
  eapply suffix_trans; [apply skip_word_suffix | exact S1].
Qed.

Lemma tparse_decl_pos : forall e s, holds (inv (Some s)) (tparse_decl k e s) Pnode.
Proof.
  intros e s. unfold tparse_decl. eapply h_bind; [apply h_stamp; [exact TA | exact TK | apply suffix_refl]|]. intros []; cbv beta.
  eapply h_pre; [|apply tdecl_loop_pos]. intros st H. eapply inv_suffix; [exact H | apply drop_suffix].
Qed.

Lemma quiet_pos : forall s r, (forall x q er, r = POk (x, q, er) -> psuf q s) -> holds (inv (Some s)) (quiet r) Pnode.
Proof.
  intros s r H. unfold quiet. eapply h_bind with (Q := fun '(_, q, _) st => inv q st).
  - apply h_lift. intros [[x q] er] st E HI. eapply inv_psuf; [exact HI | eapply H; exact E].
  - intros [[x q] er]. apply h_ret. auto.
Qed.

Lemma tparse_comment_pos : forall e s, StringEqual s "<!--" = true -> holds (inv (Some s)) (tparse_comment k e s) Pnode.
Proof.
  intros e s H. unfold tparse_comment. eapply h_bind; [apply h_stamp; [exact TA | exact TK | apply suffix_refl]|]. intros []; cbv beta.
  apply quiet_pos. intros x q er E. assert (P := parse_comment_ok e s s (suffix_refl s) H). rewrite E in P. apply pstrict_suf. exact P.
Qed.

Lemma tparse_unknown_pos : forall e s, s <> "" -> holds (inv (Some s)) (tparse_unknown k e s) Pnode.
Proof.
  intros e s H. unfold tparse_unknown. eapply h_bind; [apply h_stamp; [exact TA | exact TK | apply suffix_refl]|]. intros []; cbv beta.
  apply quiet_pos. intros x q er E. assert (P := parse_unknown_ok s True H). rewrite E in P. apply pstrict_suf. exact P.
Qed.

Lemma tparse_text_pos : forall e c t, c <> ltc -> holds (inv (Some (String c t))) (tparse_text k e (String c t)) Pnode.
Proof.
  intros e c t H. unfold tparse_text. eapply h_bind; [apply h_stamp; [exact TA | exact TK | apply suffix_refl]|]. intros []; cbv beta.
  apply h_lift. intros [v q] st E HI. assert (P := parse_text_ok e c t _ (suffix_refl _) H). rewrite E in P.
  cbn [okp] in P. cbn. eapply inv_psuf; [exact HI | apply pstrict_suf; exact P].
Qed.

Lemma identify_elem : forall s, identify s = KElem -> exists a c t, s = String a (String c t) /\ start_byte (byte c).
Proof.
  intros s H. unfold identify in H. destruct (StringEqualNoCase s "<?xml"); [discriminate|].
  destruct (StringEqual s "<!--"); [discriminate|]. destruct (StringEqual s "<!"); [discriminate|].
  destruct s as [|a [|b s]]; try discriminate. destruct (IsAlpha b || ceqb b "_") eqn:E; [|discriminate].
  exists a, b, s. split; [reflexivity | apply letter_start; exact E].
Qed.

Lemma start_not_ws : forall c, start_byte (byte c) -> IsWhiteSpace c = false.
Proof.
  intros c H. destruct (IsWhiteSpace c) eqn:W; [|reflexivity]. apply ws_space in W. unfold start_byte, space_byte in *. lia.
Qed.

Lemma inv_skip : forall e q st, inv q st -> inv (SkipWhiteSpace e q) st.
Proof.
  intros e [s|] st H; [|exact H]. eapply inv_psuf; [exact H|]. apply skip_psuf. apply suffix_refl.
Qed.

Lemma elem_value_pos : forall n,
  (forall e c t, start_byte (byte c) -> holds (inv (Some (String ltc (String c t)))) (tparse_elem k n e (Some (String ltc (String c t)))) Pnode) /\
  (forall e p, holds (inv p) (tread_value k n e p) (fun '(_, q) st => inv q st /\
     forall c t, q = Some (String c t) -> exists r, String c t = "</" +++ r)).
Proof.
  induction n as [|n [IHe IHv]]; [split; intros; apply h_fuel|]. split.
  - intros e c t SB. apply h_fact. intros A SU. cbn [tparse_elem]. set (s := String ltc (String c t)) in *.
    unfold s at 2. rewrite (skip_id_ascii e ltc (String c t) A eq_refl).
    eapply h_bind; [apply h_stamp; [exact TA | exact TK | apply suffix_refl]|]. intros []; cbv beta.
    change (negb (ceqb ltc ltc)) with false. cbv iota zeta.
    assert (S1 : suffix (String c t) s) by apply suffix_tail.
    rewrite (skip_id_ascii e c t (asc_suffix _ _ A S1) (start_not_ws c SB)).
    destruct (ReadName_spec c t SB) as [name [r0 [-> [E XN]]]].
    destruct r0 as [|c1 s1].
    { eapply h_bind; [apply h_err; [exact TA | exact TK | exact S1|]|].
      - intros pre EP. split; [|rewrite E, sapp_nil_r; exact XN].
        destruct SU as [a SU]. exists a. apply (sapp_cancel_r (String c t)). rewrite <- EP, SU, sapp_assoc. reflexivity.
      - intros []; cbv beta; apply h_ret. intros st [H _]. eapply inv_none. exact H. }
    assert (S2 : suffix (String c1 s1) s) by (eapply suffix_trans; [exists name; exact E | exact S1]).
    eapply h_bind; [eapply h_pre; [|apply tparse_attrs_pos]; intros st H; eapply inv_suffix; eauto|].
    intros [attrs [r|r|er]].
    + apply h_ret. auto.
    + eapply h_bind; [eapply h_pre; [|apply IHv]; intros st H; apply inv_skip; exact H|].
      intros [ch q]. destruct q as [[|c2 s2]|].
      * apply h_ret. intros st [H _]. eapply inv_none. exact H.
      * destruct (strip ("</" +++ name +++ ">") (String c2 s2)) as [r2|] eqn:ST.
        -- apply strip_some in ST. apply h_ret. intros st [H _]. eapply inv_suffix; [exact H|]. rewrite ST. apply suffix_app.
        -- intros st [H1 H2]. revert st H1. specialize (H2 c2 s2 eq_refl).
           apply (h_bind _ _ (inv (Some (String c2 s2))) _ _ (fun _ st => inv (Some (String c2 s2)) st /\ errd st <> None)).
           ++ apply h_err; [exact TA | exact TK | apply suffix_refl|]. intros pre _. exact H2.
           ++ intros []; cbv beta; apply h_ret. intros st [H _]. eapply inv_none. exact H.
      * apply h_ret. intros st [H _]. eapply inv_none. exact H.
    + apply h_ret. auto.
  - intros e p. cbn [tread_value]. destruct p as [[|c t]|].
    + apply h_ret. intros st H. split; [exact H | discriminate].
    + assert (REC : forall q f, (forall a, holds (fun st => let '(_, q2) := a in inv q2 st /\ forall c t, q2 = Some (String c t) -> exists r, String c t = "</" +++ r)
          (f a) (fun '((_, q2) : list xnode * ptr) st => inv q2 st /\ forall c t, q2 = Some (String c t) -> exists r, String c t = "</" +++ r)) ->
        holds (inv q) (mbind (tread_value k n e (SkipWhiteSpace e q)) f)
          (fun '(_, q2) st => inv q2 st /\ forall c t, q2 = Some (String c t) -> exists r, String c t = "</" +++ r)).
      { intros q f H. eapply h_bind; [eapply h_pre; [|apply IHv]; intros st HI; apply inv_skip; exact HI|]. intros [ch q2]. exact (H (ch, q2)). }
      destruct (ceqb c ltc) eqn:CL; cbn [negb].
      * apply ceqb_true in CL. subst c. destruct (StringEqual (String ltc t) "</") eqn:SE.
        { apply h_ret. intros st H. split; [exact H|]. intros c' t' X. injection X as <- <-.
          unfold StringEqual in SE. destruct (strip "</" (String ltc t)) as [r|] eqn:ST; [|discriminate].
          apply strip_some in ST. exists r. exact ST. }
        eapply h_bind with (Q := Pnode).
        -- destruct (identify (String ltc t)) eqn:ID.
           ++ apply tparse_decl_pos.
           ++ apply tparse_comment_pos. apply identify_comment. exact ID.
           ++ apply tparse_unknown_pos. discriminate.
           ++ destruct (identify_elem _ ID) as [a [c [t' [X SB]]]]. injection X as <- ->. apply IHe. exact SB.
        -- intros [x q]. apply REC. intros [ch q2]. apply h_ret. auto.
      * eapply h_bind; [apply tparse_text_pos; apply ceqb_false; exact CL|].
        intros [v q]. apply REC. intros [ch q2]. apply h_ret. auto.
    + eapply h_bind; [apply h_err0; exact I|]. intros []; cbv beta. apply h_ret. intros st [H _]. split; [exact H | discriminate].
Qed.

Lemma tdoc_loop_pos : forall n e p, holds (inv p) (tdoc_loop k n e p) (fun _ => inv None).
Proof.
  induction n; intros e p; cbn [tdoc_loop]; [apply h_fuel|].
  destruct p as [[|c t]|]; try (apply h_ret; intros st H; eapply inv_none; exact H).
  destruct (ceqb c ltc) eqn:CL; cbn [negb]; [|apply h_ret; intros st H; eapply inv_none; exact H].
  apply ceqb_true in CL. subst c.
  eapply h_bind with (Q := Pnode).
  - unfold tparse_node. destruct (identify (String ltc t)) eqn:ID.
    + apply tparse_decl_pos.
    + apply tparse_comment_pos. apply identify_comment. exact ID.
    + apply tparse_unknown_pos. discriminate.
    + destruct (identify_elem _ ID) as [a [c [t' [X SB]]]]. injection X as <- ->. apply elem_value_pos. exact SB.
  - intros [x q]. cbv zeta. eapply h_bind; [eapply h_pre; [|apply IHn]; intros st H; apply inv_skip; exact H|].
    intros l. apply h_ret. auto.
Qed.
End Positions.

Lemma tLoadFile_pos : forall s k, ascii_text s -> (String.length s < k)%nat ->
  match tLoadFile k s with
  | TOk st _ => good_err s (errd st)
  | TWait => False
  | _ => True
  end.
Proof.
  intros s k A L. unfold tLoadFile. destruct (String.eqb s ""); [exact I|]. unfold tparse_doc.
  assert (I0 : inv s (Some s) (mkP 0 0 (Some s) None)).
  { split; [exact I|]. exists s. split; [reflexivity|]. split.
    - exists "", 0. split; [reflexivity|]. split; [reflexivity|]. split; [apply clean_0 | cbn; lia].
    - left. apply suffix_refl. }
  destruct (SkipWhiteSpace (start_enc s) (Some s)) as [s1|] eqn:E.
  - match goal with |- match ?m _ with _ => _ end => assert (K : holds (inv s (Some s)) m (fun _ => inv s None)) end.
    { eapply h_bind.
      - eapply h_pre; [|apply (tdoc_loop_pos s k A L)]. intros st H. rewrite <- E. apply inv_skip. exact H.
      - intros [|x l]; [|apply h_ret; auto].
        eapply h_bind; [apply h_err0; exact I|]. intros []; cbv beta. apply h_ret. intros st [H _]. exact H. }
    specialize (K _ I0). match goal with |- match ?r with _ => _ end => destruct r end; auto. apply K.
  - cbn. left. split; [reflexivity|]. split; [reflexivity | exact I].
Qed.
