(** List lemmas missing from the standard library of this release. *)
From Coq Require Import List Lia Arith.
Import ListNotations.

Lemma nth_firstn : forall A (l : list A) k i, i < k -> nth_error (firstn k l) i = nth_error l i.
Proof. induction l; intros k i H; destruct k; simpl; auto; try lia; destruct i; simpl; auto. apply IHl. lia. Qed.
Lemma nth_skipn : forall A (l : list A) k i, nth_error (skipn k l) i = nth_error l (k + i).
Proof. induction l; intros k i; destruct k; simpl; auto. destruct i; auto. Qed.
Lemma firstn_S : forall A (l : list A) i a, nth_error l i = Some a -> firstn (S i) l = firstn i l ++ [a].
Proof.
  induction l; intros i x H; destruct i; simpl in *; try discriminate.
  - now inversion H.
  - now rewrite <- (IHl _ _ H).
Qed.
