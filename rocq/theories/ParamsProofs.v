From Coq Require Import ZArith List String Reals Sorted.
From Verif Require Import Base BaseProofs ParamsModel ParamsSpec.
Import ListNotations.

Lemma after_snoc : forall h c, after (h ++ [c]) = do_set (after h) c.
Proof. intros. unfold after. rewrite fold_left_app. reflexivity. Qed.

Lemma ptype_dec : forall a b : ptype, {a = b} + {a <> b}.
Proof. decide equality. Qed.

Lemma do_get_set_same : forall p k v, do_get (type_of v) (do_set p (k, v)) k = Ok v.
Proof.
  intros p k v. destruct v; simpl; unfold getIntVal, getDoubleVal, getStringVal, getIntVals,
    getDoubleVals, getStringVals, lookup_or_throw; simpl;
  rewrite sm_find_set_same; reflexivity.
Qed.

Lemma do_get_set_other : forall t p k k' v,
  type_of v <> t \/ k' <> k -> do_get t (do_set p (k', v)) k = do_get t p k.
Proof.
  intros t p k k' v H.
  destruct v, t; simpl in *; try reflexivity;
  (destruct H as [H|H]; [congruence|]);
  unfold getIntVal, getDoubleVal, getStringVal, getIntVals,
    getDoubleVals, getStringVals, lookup_or_throw; simpl;
  rewrite sm_find_set_other by congruence; reflexivity.
Qed.

Lemma last_write_wins : forall h t k,
  (exists v, last_stored h t k v /\ do_get t (after h) k = Ok v) \/
  (never_stored h t k /\ do_get t (after h) k = Throw (EUnknownParameter k)).
Proof.
  intros h t k. induction h as [|[k' v'] h IH] using rev_ind.
  - right. split; [intros v []|]. destruct t; reflexivity.
  - rewrite after_snoc.
    destruct (string_dec k' k) as [->|nk].
    + destruct (ptype_dec (type_of v') t) as [<-|nt].
      * left. exists v'. split; [|apply do_get_set_same].
        exists h, []. split; [reflexivity|split; [reflexivity|intros ? []]].
      * rewrite do_get_set_other by auto.
        destruct IH as [[v [(h1 & h2 & -> & Hty & Hno) Hg]]|[Hn Hg]].
        -- left. exists v. split; [|exact Hg]. exists h1, (h2 ++ [(k, v')]).
           split; [rewrite <- app_assoc; reflexivity|split; [exact Hty|]].
           intros w Hw. apply in_app_or in Hw. destruct Hw as [Hw|[Hw|[]]]; [eauto|].
           inversion Hw; subst; exact nt.
        -- right. split; [|exact Hg]. intros w Hw. apply in_app_or in Hw.
           destruct Hw as [Hw|[Hw|[]]]; [eauto|]. inversion Hw; subst; exact nt.
    + rewrite do_get_set_other by auto.
      destruct IH as [[v [(h1 & h2 & -> & Hty & Hno) Hg]]|[Hn Hg]].
      * left. exists v. split; [|exact Hg]. exists h1, (h2 ++ [(k', v')]).
        split; [rewrite <- app_assoc; reflexivity|split; [exact Hty|]].
        intros w Hw. apply in_app_or in Hw. destruct Hw as [Hw|[Hw|[]]]; [eauto|congruence].
      * right. split; [|exact Hg]. intros w Hw. apply in_app_or in Hw.
        destruct Hw as [Hw|[Hw|[]]]; [eauto|congruence].
Qed.

Lemma keys_set : forall t p k v x,
  In x (do_keys t (do_set p (k, v))) <-> (type_of v = t /\ x = k) \/ In x (do_keys t p).
Proof.
  intros t p k v x. destruct v, t; simpl;
  try (split; [auto|intros [[H _]|H]; [discriminate|exact H]]);
  unfold getIntKeys, getDoubleKeys, getStringKeys, getIntVecKeys, getDoubleVecKeys,
    getStringVecKeys; simpl; rewrite sm_keys_set_in; intuition.
Qed.

Lemma keys_set_sorted : forall t p c,
  StronglySorted slt (do_keys t p) -> StronglySorted slt (do_keys t (do_set p c)).
Proof.
  intros t p [k v] H. destruct v, t; simpl; try exact H;
  unfold getIntKeys, getDoubleKeys, getStringKeys, getIntVecKeys, getDoubleVecKeys,
    getStringVecKeys; simpl; apply sm_set_sorted; exact H.
Qed.

Lemma keys_exact_sorted : forall h t,
  StronglySorted slt (do_keys t (after h)) /\
  (forall k, In k (do_keys t (after h)) <-> exists v, In (k, v) h /\ type_of v = t).
Proof.
  intros h t. induction h as [|[k' v'] h [IHs IHi]] using rev_ind.
  - split.
    + destruct t; constructor.
    + intros k. split.
      * destruct t; intros [].
      * intros [v [[] _]].
  - rewrite after_snoc. split; [apply keys_set_sorted; exact IHs|].
    intros k. rewrite keys_set, IHi. split.
    + intros [[H ->]|[v [Hi Ht]]].
      * exists v'. split; [apply in_or_app; simpl; auto|exact H].
      * exists v. split; [apply in_or_app; auto|exact Ht].
    + intros [v [Hi Ht]]. apply in_app_or in Hi. destruct Hi as [Hi|[Hi|[]]].
      * right; eauto.
      * inversion Hi; subst; auto.
Qed.
