(** More turns of the loop of Stamp do not change a result *)
From Coq Require Import ZArith List String Ascii Bool Lia.
From Verif Require Import Base XmlModel PosModel.
Import ListNotations.
Open Scope string_scope.
Open Scope list_scope.
Open Scope Z_scope.

Definition mle {A} (m m' : M A) : Prop := forall st, m st = TWait \/ m' st = m st.

Lemma mle_refl : forall A (m : M A), mle m m.
Proof. intros A m st. right. reflexivity. Qed.
Lemma mle_bind : forall A B (m m' : M A) (f f' : A -> M B), mle m m' -> (forall a, mle (f a) (f' a)) -> mle (mbind m f) (mbind m' f').
Proof.
  intros A B m m' f f' H1 H2 st. unfold mbind. destruct (H1 st) as [->| ->]; [left; reflexivity|].
  destruct (m st) as [st' a| | |]; auto. apply H2.
Qed.

Lemma stamp_loop_more : forall k k' e now p r c x, stamp_loop k e now p r c = Some x -> (k <= k')%nat ->
  stamp_loop k' e now p r c = Some x.
Proof.
  induction k; intros k' e now p r c x H L; [discriminate|]. destruct k' as [|k']; [lia|].
  assert (IH : forall p r c x, stamp_loop k e now p r c = Some x -> stamp_loop k' e now p r c = Some x)
    by (intros; apply IHk; [assumption | lia]).
  clear IHk. cbn [stamp_loop] in *. destruct (now <? String.length p)%nat; [|exact H].
  destruct p as [|a t]; [exact H|].
  destruct (byte a =? 13); [auto|]. destruct (byte a =? 10); [auto|]. destruct (byte a =? 9); [auto|].
  destruct (byte a =? 239).
  - destruct (is_utf8 e); [|auto]. destruct t as [|b [|d u]]; auto.
  - cbv zeta in *. destruct (Z.of_nat (String.length (String a t)) <? (if is_utf8 e then utf8_len a else 1)); auto.
Qed.

Section More.
Variables k k' : nat.
Hypothesis LE : (k <= k')%nat.

Lemma Stamp_more : forall e now, mle (Stamp k e now) (Stamp k' e now).
Proof.
  intros e now st. unfold Stamp. destruct (stamp st) as [p|]; [|auto].
  destruct (stamp_loop k e (String.length now) p (c_row st) (c_col st)) as [x|] eqn:E; [|auto].
  rewrite (stamp_loop_more _ _ _ _ _ _ _ _ E LE). auto.
Qed.

Lemma SetError_more : forall x e place, mle (SetError k x e place) (SetError k' x e place).
Proof.
  intros x e place st. unfold SetError. destruct (errd st); [auto|]. destruct place as [now|]; [|auto].
  apply mle_bind; [apply Stamp_more|]. intros a. apply mle_refl.
Qed.

Ltac mp := repeat first
  [ apply mle_refl | apply Stamp_more | apply SetError_more
  | match goal with |- mle (mbind _ _) (mbind _ _) => apply mle_bind; [|intros ?] end
  | match goal with |- mle (match ?x with _ => _ end) _ => destruct x end ].

Lemma attr_more : forall doc e p, mle (tparse_attr k doc e p) (tparse_attr k' doc e p).
Proof. intros doc e p. unfold tparse_attr. mp. Qed.

Lemma attrs_more : forall n e acc p, mle (tparse_attrs k n e acc p) (tparse_attrs k' n e acc p).
Proof.
  induction n; intros e acc p; cbn [tparse_attrs]; [apply mle_refl|].
  destruct (SkipWhiteSpace e p) as [[|c t]|]; mp; try apply IHn. apply attr_more.
Qed.

Lemma decl_more : forall n e v c a p, mle (tdecl_loop k n e v c a p) (tdecl_loop k' n e v c a p).
Proof.
  induction n; intros e v c a p; cbn [tdecl_loop]; [apply mle_refl|].
  destruct p as [[|d t]|]; mp; try apply IHn; apply attr_more.
Qed.

Lemma parts_more : forall e s,
  mle (tparse_decl k e s) (tparse_decl k' e s) /\ mle (tparse_comment k e s) (tparse_comment k' e s) /\
  mle (tparse_unknown k e s) (tparse_unknown k' e s) /\ mle (tparse_text k e s) (tparse_text k' e s).
Proof.
  intros e s. unfold tparse_decl, tparse_comment, tparse_unknown, tparse_text, quiet.
  split; [mp; apply decl_more|]. split; [mp|]. split; mp.
Qed.

Lemma elem_value_more : forall n,
  (forall e p, mle (tparse_elem k n e p) (tparse_elem k' n e p)) /\ (forall e p, mle (tread_value k n e p) (tread_value k' n e p)).
Proof.
  induction n as [|n [IHe IHv]]; [split; intros; apply mle_refl|]. split.
  - intros e p. cbn [tparse_elem]. destruct (SkipWhiteSpace e p) as [[|c t]|]; mp; try apply IHv; apply attrs_more.
  - intros e p. cbn [tread_value]. destruct p as [[|c t]|]; mp; try apply IHv; try apply IHe; apply (parts_more e (String c t)).
Qed.

Lemma doc_more : forall n e p, mle (tdoc_loop k n e p) (tdoc_loop k' n e p).
Proof.
  induction n; intros e p; cbn [tdoc_loop]; [apply mle_refl|].
  destruct p as [[|c t]|]; cbv zeta; mp; try apply IHn. unfold tparse_node.
  destruct (identify (String c t)); try apply (parts_more e (String c t)). apply elem_value_more.
Qed.

Lemma load_more : forall s, tLoadFile k s = TWait \/ tLoadFile k' s = tLoadFile k s.
Proof.
  intros s. unfold tLoadFile. destruct (String.eqb s ""); [auto|]. unfold tparse_doc.
  destruct (SkipWhiteSpace (start_enc s) (Some s)) as [s1|]; [|right; reflexivity].
  apply mle_bind; [apply doc_more|]. intros l. destruct l; [|apply mle_refl].
  apply mle_bind; [apply SetError_more | intros; apply mle_refl].
Qed.
End More.
