(** Lemmas about [Base]. *)
From Coq Require Import ZArith List String Ascii Bool Lia Sorted NArith.
From Verif Require Import Base.
Import ListNotations.

Lemma scompare_refl : forall s, String.compare s s = Eq.
Proof.
  induction s as [|c s IH]; simpl; [reflexivity|].
  unfold Ascii.compare. rewrite N.compare_refl. exact IH.
Qed.

Lemma scompare_gt : forall a b, String.compare a b = Gt -> slt b a.
Proof.
  intros a b H. unfold slt. rewrite String.compare_antisym, H. reflexivity.
Qed.

Lemma slt_irrefl : forall a, ~ slt a a.
Proof. intros a H. unfold slt in H. rewrite scompare_refl in H. discriminate. Qed.

Lemma ascii_compare_lt : forall a b, Ascii.compare a b = Lt <-> (N_of_ascii a < N_of_ascii b)%N.
Proof. intros a b. unfold Ascii.compare. apply N.compare_lt_iff. Qed.

Lemma slt_trans : forall a b c, slt a b -> slt b c -> slt a c.
Proof.
  unfold slt.
  induction a as [|x a IH]; intros [|y b] [|z c]; simpl; intros H1 H2; try discriminate; auto.
  destruct (Ascii.compare x y) eqn:Exy; try discriminate;
  destruct (Ascii.compare y z) eqn:Eyz; try discriminate.
  - apply Ascii.compare_eq_iff in Exy. apply Ascii.compare_eq_iff in Eyz. subst.
    unfold Ascii.compare. rewrite N.compare_refl. eauto.
  - apply Ascii.compare_eq_iff in Exy. subst. rewrite Eyz. reflexivity.
  - apply Ascii.compare_eq_iff in Eyz. subst. rewrite Exy. reflexivity.
  - assert (E: Ascii.compare x z = Lt).
    { apply ascii_compare_lt. apply ascii_compare_lt in Exy. apply ascii_compare_lt in Eyz.
      eapply N.lt_trans; eassumption. }
    rewrite E. reflexivity.
Qed.

Section SMap.
Context {V : Type}.
Implicit Types m : smap V.

Lemma sm_find_set_same : forall m k v, sm_find k (sm_set k v m) = Some v.
Proof.
  induction m as [|[k' v'] t IH]; intros k v; simpl.
  - rewrite String.eqb_refl. reflexivity.
  - destruct (String.compare k k') eqn:E; simpl.
    + apply String.compare_eq_iff in E. subst. rewrite String.eqb_refl. reflexivity.
    + rewrite String.eqb_refl. reflexivity.
    + destruct (String.eqb_spec k k') as [->|n].
      * rewrite scompare_refl in E. discriminate.
      * apply IH.
Qed.

Lemma sm_find_set_other : forall m k k2 v, k2 <> k -> sm_find k2 (sm_set k v m) = sm_find k2 m.
Proof.
  induction m as [|[k' v'] t IH]; intros k k2 v H; simpl.
  - destruct (String.eqb_spec k2 k); congruence.
  - destruct (String.compare k k') eqn:E; simpl.
    + apply String.compare_eq_iff in E. subst.
      destruct (String.eqb_spec k2 k'); congruence.
    + destruct (String.eqb_spec k2 k); congruence.
    + destruct (String.eqb k2 k'); auto.
Qed.

Lemma sm_keys_set_in : forall m k v x, In x (sm_keys (sm_set k v m)) <-> x = k \/ In x (sm_keys m).
Proof.
  unfold sm_keys.
  induction m as [|[k' v'] t IH]; intros k v x; simpl.
  - intuition.
  - destruct (String.compare k k') eqn:E; simpl.
    + apply String.compare_eq_iff in E. subst. intuition.
    + intuition.
    + rewrite IH. intuition.
Qed.

Lemma sm_set_sorted : forall m k v,
  StronglySorted slt (sm_keys m) -> StronglySorted slt (sm_keys (sm_set k v m)).
Proof.
  unfold sm_keys.
  induction m as [|[k' v'] t IH]; intros k v H; simpl.
  - repeat constructor.
  - simpl in H. inversion H as [|? ? Hs Hf]; subst.
    destruct (String.compare k k') eqn:E; simpl.
    + constructor; auto.
    + constructor; [constructor; auto|].
      constructor; [exact E|].
      eapply Forall_impl; [|exact Hf]. intros a Ha. eapply slt_trans; [exact E|exact Ha].
    + constructor; [apply IH; auto|].
      apply Forall_forall. intros x Hx.
      change (map fst (sm_set k v t)) with (sm_keys (sm_set k v t)) in Hx.
      apply sm_keys_set_in in Hx. destruct Hx as [->|Hx].
      * apply scompare_gt; exact E.
      * rewrite Forall_forall in Hf. apply Hf. exact Hx.
Qed.

Lemma sm_find_none_iff : forall m k, sm_find k m = None <-> ~ In k (sm_keys m).
Proof.
  unfold sm_keys. induction m as [|[k' v'] t IH]; intros k; simpl; [tauto|].
  destruct (String.eqb_spec k k') as [->|n].
  - split; [discriminate|intuition].
  - rewrite IH. intuition.
Qed.

Lemma sm_find_in : forall m k v, sm_find k m = Some v -> In (k, v) m.
Proof.
  induction m as [|[k' v'] t IH]; intros k v; simpl; [discriminate|].
  destruct (String.eqb_spec k k') as [->|n]; intros H.
  - inversion H; auto.
  - right; auto.
Qed.

Lemma sm_find_some_iff : forall m k, StronglySorted slt (sm_keys m) ->
  forall v, sm_find k m = Some v <-> In (k, v) m.
Proof.
  unfold sm_keys. induction m as [|[k' v'] t IH]; intros k Hs v; simpl.
  - split; [discriminate|tauto].
  - simpl in Hs. inversion Hs as [|? ? Hs' Hf]; subst.
    destruct (String.eqb_spec k k') as [->|n].
    + split.
      * intros H; inversion H; auto.
      * intros [H|H]; [inversion H; auto|].
        exfalso. rewrite Forall_forall in Hf. apply (slt_irrefl k'). apply Hf.
        apply (in_map fst) in H. exact H.
    + rewrite IH by assumption. split; [auto|].
      intros [H|H]; [inversion H; congruence|auto].
Qed.

Lemma sorted_nodup : forall l, StronglySorted slt l -> NoDup l.
Proof.
  induction l as [|a l IH]; intros H; constructor; inversion H as [|? ? Hs Hf]; subst; auto.
  intros Hin. rewrite Forall_forall in Hf. apply (slt_irrefl a); auto.
Qed.
End SMap.
