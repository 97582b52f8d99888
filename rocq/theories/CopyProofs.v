From Coq Require Import ZArith List String Ascii Bool Reals Lia Sorting.Sorted.
From Verif Require Import Base BaseProofs RBase XmlModel XmlSpec XmlProofs XmlProofs2 XmlProofs3 NumModel NumSpec NumProofs HxModel HxSpec HxProofs
  ParamsModel ParamsSpec ParamsProofs ParXmlModel ParXmlSpec ParXmlProofs TrkXmlSpec CopySpec.
From Verif Require GearXmlSpec CaloXmlProofs.
Import ListNotations.

(** ** Words of a text are parts of it *)
Lemma tok_part : forall s b acc x, In x (tok s b acc) ->
  In x acc \/ (exists u v, s = u +++ x +++ v) \/ (b = false /\ exists A w u v, acc = (A ++ [w])%list /\ x = w +++ u /\ s = u +++ v).
Proof.
  induction s as [|c s IH]; intros b acc x I; [left; exact I|]. cbn [tok] in I. destruct (ceqb c " ").
  - apply IH in I. destruct I as [I|[[u [v E]]|[B _]]]; [left; exact I | | discriminate]. right. left. exists (String c u), v. cbn. rewrite E. reflexivity.
  - destruct b.
    + rewrite app_last_snoc in I. apply IH in I. destruct I as [I|[[u [v E]]|[_ [A [w [u [v [E [X S]]]]]]]]].
      * apply in_app_or in I. destruct I as [I|[<-|[]]]; [left; exact I|]. right. left. exists ""%string, s. reflexivity.
      * right. left. exists (String c u), v. cbn. rewrite E. reflexivity.
      * apply app_inj_tail in E. destruct E as [_ <-]. right. left. exists ""%string, v. subst x s. reflexivity.
    + destruct acc as [|a0 acc0] eqn:EA.
      * cbn in I. apply IH in I. destruct I as [[]|[[u [v E]]|[_ [A [w [u [v [E _]]]]]]]].
        { right. left. exists (String c u), v. cbn. rewrite E. reflexivity. }
        { destruct A; discriminate. }
      * assert (NE : a0 :: acc0 <> []) by discriminate. destruct (exists_last NE) as [pre [y E]]. rewrite E in I |- *. rewrite app_last_snoc in I.
        apply IH in I. destruct I as [I|[[u [v E2]]|[_ [A [w [u [v [E2 [X S]]]]]]]]].
        { apply in_app_or in I. destruct I as [I|[<-|[]]]; [left; apply in_or_app; left; exact I|]. right. right. split; [reflexivity|].
          exists pre, y, (String c ""), s. auto. }
        { right. left. exists (String c u), v. cbn. rewrite E2. reflexivity. }
        { apply app_inj_tail in E2. destruct E2 as [_ <-]. right. right. split; [reflexivity|]. exists pre, y, (String c u), v.
          subst x s. rewrite sapp_assoc. auto. }
Qed.
Lemma tokenize_part : forall s x, In x (tokenize s) -> exists u v, s = u +++ x +++ v.
Proof. intros s x I. apply tok_part in I. destruct I as [[]|[H|[B _]]]; [exact H | discriminate]. Qed.
Lemma charref_part : forall u x v, charref_free (u +++ x +++ v) -> charref_free x.
Proof. intros u x v H [a [b E]]. apply H. exists (u +++ a), (b +++ v). subst x. rewrite !sapp_assoc. reflexivity. Qed.
Lemma token_charref : forall s x, charref_free s -> In x (tokenize (c_str s)) -> charref_free x.
Proof. intros s x C I. apply tokenize_part in I. destruct I as [u [v E]]. apply charref_cstr in C. rewrite E in C. eapply charref_part. exact C. Qed.
Lemma token_word : forall s x, In x (tokenize (c_str s)) -> word x.
Proof.
  intros s x I. pose proof (tokenize_words (c_str s)) as W. rewrite forallb_forall in W. specialize (W x I). apply wordb_spec in W. destruct W as [W1 W2].
  split; [exact W1|]. split; [exact W2|]. apply tokenize_part in I. destruct I as [u [v E]]. pose proof (c_str_nonul s) as N. rewrite E in N.
  intros c [a [b B]]. apply N. exists (u +++ a), (b +++ v). subst x. rewrite !sapp_assoc. reflexivity.
Qed.

(** ** Parameters *)
Lemma mapopt_sorted : forall {A B} (f : A -> option B) m, StronglySorted slt (sm_keys m) -> StronglySorted slt (sm_keys (mapopt f m)).
Proof.
  intros A B f. induction m as [|[k v] m IH]; intros S; [exact S|]. cbn in S. apply StronglySorted_inv in S. destruct S as [S1 S2]. cbn.
  destruct (f v); [|apply IH; exact S1]. cbn. constructor; [apply IH; exact S1|]. rewrite Forall_forall in *. intros x X. apply S2. eapply mapopt_keys. exact X.
Qed.
Lemma back_sorted : forall p, sorted_params p -> sorted_params (back p).
Proof.
  intros p S t. pose proof (S t) as St. destruct t; [exact St | exact (mapopt_sorted _ _ St)..].
Qed.

Lemma read_param_call : forall p n q, read_param p n = Ok q -> q = p \/ exists c, q = do_set p c.
Proof.
  intros p n q H. unfold read_param in H. destruct (tokenize (param_value n)) as [|t0 ts]; [injection H as <-; left; reflexivity|].
  destruct (getXMLAttribute n "name") as [k| |]; cbn [rbind] in H; try discriminate H.
  destruct (getXMLAttribute n "type") as [ty| |]; cbn [rbind] in H; try discriminate H.
  destruct (String.eqb ty "int"). { destruct (atoi t0) as [v| |]; cbn in H; try discriminate H. injection H as <-. right. exists (k, VInt v). reflexivity. }
  destruct (String.eqb ty "double"). { injection H as <-. right. exists (k, VDouble (atof t0)). reflexivity. }
  destruct (String.eqb ty "string"). { injection H as <-. right. exists (k, VString t0). reflexivity. }
  destruct (String.eqb ty "IntVec"). { destruct (rall atoi (t0 :: ts)) as [v| |]; cbn [rmap rbind] in H; try discriminate H. injection H as <-. right. exists (k, VInts v). reflexivity. }
  destruct (String.eqb ty "DoubleVec"). { injection H as <-. right. exists (k, VDoubles (map atof (t0 :: ts))). reflexivity. }
  destruct (String.eqb ty "StringVec"). { injection H as <-. right. exists (k, VStrings (t0 :: ts)). reflexivity. }
  injection H as <-. left. reflexivity.
Qed.
Lemma rfold_calls : forall l p q, rfold read_param l p = Ok q -> (exists h, p = after h) -> exists h, q = after h.
Proof.
  induction l as [|n l IH]; intros p q H [h E]; cbn in H.
  - injection H as <-. exists h. exact E.
  - destruct (read_param p n) as [p1| |] eqn:R; cbn in H; try discriminate H. apply (IH p1 q H).
    apply read_param_call in R. destruct R as [->|[c ->]]; [exists h; exact E|]. exists (h ++ [c])%list. rewrite after_snoc, E. reflexivity.
Qed.
Lemma params_read_calls : forall n q, params_from_xml n params_empty = Ok q -> exists h, q = after h.
Proof. intros n q H. apply (rfold_calls _ _ _ H). exists []. reflexivity. Qed.

Lemma back_after : forall p, sorted_params p -> text_ok_params p -> exists h, back p = after h.
Proof. intros p S T. apply (rfold_calls _ _ _ (read_elems p S T)). exists []. reflexivity. Qed.

(** which values a set of parameters that came back holds *)
Lemma back_get : forall p t k v, sorted_params p -> do_get t (back p) k = Ok v ->
  exists w, do_get t p k = Ok w /\
    match w, v with
    | VInt a, VInt b => a = b
    | VDouble a, VDouble b => b = atof (print_double a)
    | VString a, VString b => In b (tokenize (c_str a))
    | VInts a, VInts b => a = b /\ a <> []
    | VDoubles a, VDoubles b => b = map (fun x => atof (print_double x)) a /\ a <> []
    | VStrings a, VStrings b => b = tokenize (c_str (join a)) /\ b <> []
    | _, _ => False
    end.
Proof.
  intros p t k v S H. pose proof (S t) as St.
  assert (Q : forall A B (f : A -> option B) (m : smap A) (C : B -> pval), StronglySorted slt (sm_keys m) -> rmap C (lookup_or_throw k (mapopt f m)) = Ok v ->
    exists a b, lookup_or_throw k m = Ok a /\ f a = Some b /\ v = C b).
  { intros A B f m C Sm E. unfold lookup_or_throw in *. rewrite mapopt_find in E by exact Sm. destruct (sm_find k m) as [a|]; [|discriminate E].
    destruct (f a) as [b|] eqn:F; [|discriminate E]. cbn in E. injection E as <-. exists a, b. auto. }
  destruct t; cbn [do_get] in H |- *.
  - unfold getIntVal in *. cbn [back p_int] in H. exists v. split; [exact H|]. destruct (lookup_or_throw k (p_int p)); cbn in H; try discriminate H. injection H as <-. reflexivity.
  - apply Q in H; [|exact St]. destruct H as [a [b [E [F ->]]]]. exists (VDouble a). unfold getDoubleVal. rewrite E. split; [reflexivity|]. injection F as <-. reflexivity.
  - apply Q in H; [|exact St]. destruct H as [a [b [E [F ->]]]]. exists (VString a). unfold getStringVal. rewrite E. split; [reflexivity|].
    unfold back_string in F. destruct (tokenize (c_str a)); [discriminate F|]. injection F as <-. left. reflexivity.
  - apply Q in H; [|exact St]. destruct H as [a [b [E [F ->]]]]. exists (VInts a). unfold getIntVals. rewrite E. split; [reflexivity|].
    destruct a; [discriminate F|]. injection F as <-. split; [reflexivity | discriminate].
  - apply Q in H; [|exact St]. destruct H as [a [b [E [F ->]]]]. exists (VDoubles a). unfold getDoubleVals. rewrite E. split; [reflexivity|].
    destruct a; [discriminate F|]. injection F as <-. split; [reflexivity | discriminate].
  - apply Q in H; [|exact St]. destruct H as [a [b [E [F ->]]]]. exists (VStrings a). unfold getStringVals. rewrite E. split; [reflexivity|].
    unfold back_strings in F. destruct (tokenize (c_str (join a))) eqn:T; [discriminate F|]. injection F as <-. split; [reflexivity | discriminate].
Qed.

Lemma back_storable : forall p, sorted_params p -> storable p -> storable (back p).
Proof.
  intros p S T t k v G. apply back_get in G; [|exact S]. destruct G as [w [G M]]. destruct (T t k w G) as [T1 [T2 T3]]. split; [exact T1|]. split; [exact T2|].
  destruct w, v; try contradiction M; cbn [text_ok] in *; try exact I.
  - subst z. exact T3.
  - eapply token_charref; [exact T3 | exact M].
  - destruct M as [<- _]. exact T3.
  - destruct M as [-> _]. intros x X. eapply token_charref; [|exact X]. apply charref_join. exact T3.
Qed.

Lemma back_survive : forall p, sorted_params p -> ordinary_params p -> survive (back p).
Proof.
  intros p S O t k v G. apply back_get in G; [|exact S]. destruct G as [w [G M]]. specialize (O t k w G).
  destruct w, v; try contradiction M; cbn [survives ordinary_value] in *; try exact I.
  - rewrite M. apply double_stable. exact O.
  - eapply token_word. exact M.
  - destruct M as [<- M]. exact M.
  - destruct M as [-> M]. split; [destruct l; [contradiction | discriminate]|]. intros x X. apply in_map_iff in X. destruct X as [y [<- Y]].
    apply double_stable. apply O. exact Y.
  - destruct M as [-> M]. split; [exact M|]. intros x X. eapply token_word. exact X.
Qed.

Lemma back_back : forall p, sorted_params p -> ordinary_params p -> back (back p) = back p.
Proof. intros p S O. apply back_same_iff; [apply back_sorted; exact S | apply back_survive; assumption]. Qed.
