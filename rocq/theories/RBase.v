(** Helpers for modelling C++ [int] and [double] code: boolean comparisons on [R], conversion of
    a double to an int, subscripts, 32-bit wrap.  Nothing here models GEAR code itself. *)
From Coq Require Import ZArith List String Bool Reals Lra Lia.
From Flocq Require Import Core.Raux Core.Generic_fmt.
From Verif Require Import Base.
Import ListNotations.
Open Scope R_scope.

(** C++ [<], [<=], [==] on doubles (modelled as reals, so no NaN) *)
Definition Rltb (a b : R) : bool := if Rlt_dec a b then true else false.
Definition Rleb (a b : R) : bool := if Rle_dec a b then true else false.
Definition Reqb (a b : R) : bool := if Req_EM_T a b then true else false.

Lemma Rltb_spec : forall a b, BoolSpec (a < b) (b <= a) (Rltb a b).
Proof. intros; unfold Rltb; destruct (Rlt_dec a b); constructor; lra. Qed.
Lemma Rleb_spec : forall a b, BoolSpec (a <= b) (b < a) (Rleb a b).
Proof. intros; unfold Rleb; destruct (Rle_dec a b); constructor; lra. Qed.
Lemma Reqb_spec : forall a b, BoolSpec (a = b) (a <> b) (Reqb a b).
Proof. intros; unfold Reqb; destruct (Req_EM_T a b); constructor; auto. Qed.
Lemma Rltb_true : forall a b, Rltb a b = true <-> a < b.
Proof. intros; destruct (Rltb_spec a b); split; intros; try congruence; try lra; auto. Qed.
Lemma Rleb_true : forall a b, Rleb a b = true <-> a <= b.
Proof. intros; destruct (Rleb_spec a b); split; intros; try congruence; try lra; auto. Qed.
Lemma Reqb_true : forall a b, Reqb a b = true <-> a = b.
Proof. intros; destruct (Reqb_spec a b); split; intros; try congruence; auto. Qed.
Lemma Rltb_false : forall a b, Rltb a b = false <-> b <= a.
Proof. intros; destruct (Rltb_spec a b); split; intros; try congruence; try lra; auto. Qed.
Lemma Rleb_false : forall a b, Rleb a b = false <-> b < a.
Proof. intros; destruct (Rleb_spec a b); split; intros; try congruence; try lra; auto. Qed.
Lemma Reqb_false : forall a b, Reqb a b = false <-> a <> b.
Proof. intros; destruct (Reqb_spec a b); split; intros; try congruence; auto. Qed.

(** case split on every boolean comparison visible in the goal *)
Ltac rcase :=
  match goal with
  | |- context[Rltb ?a ?b] => destruct (Rltb_spec a b)
  | |- context[Rleb ?a ?b] => destruct (Rleb_spec a b)
  | |- context[Reqb ?a ?b] => destruct (Reqb_spec a b)
  end.
Ltac rcase_in H :=
  match type of H with
  | context[Rltb ?a ?b] => destruct (Rltb_spec a b)
  | context[Rleb ?a ?b] => destruct (Rleb_spec a b)
  | context[Reqb ?a ?b] => destruct (Reqb_spec a b)
  end.

(** Range of a 32-bit [int]. *)
Definition int_ok (z : Z) : Prop := (-2147483648 <= z <= 2147483647)%Z.
Definition int_okb (z : Z) : bool := ((-2147483648 <=? z) && (z <=? 2147483647))%Z%bool.
Lemma int_okb_true : forall z, int_okb z = true <-> int_ok z.
Proof.
  intros; unfold int_okb, int_ok. rewrite andb_true_iff, Z.leb_le, Z.leb_le. tauto.
Qed.

(** conversion of any integer to [int] resp. [unsigned] (two's complement, 32 bit) *)
Definition uint32 (z : Z) : Z := (z mod 4294967296)%Z.
Definition int32 (z : Z) : Z :=
  let w := (z mod 4294967296)%Z in if (w <? 2147483648)%Z then w else (w - 4294967296)%Z.

(** [(int) d]: truncation towards zero; undefined if the result is not representable *)
Definition to_int (d : R) : result Z := let z := Ztrunc d in if int_okb z then Ok z else UB.

(** [v[i]] on a std::vector: undefined if out of bounds *)
Definition nthZ {A} (l : list A) (i : Z) : option A :=
  if (i <? 0)%Z then None else nth_error l (Z.to_nat i).
Definition sub {A} (l : list A) (i : Z) : result A :=
  match nthZ l i with Some a => Ok a | None => UB end.
(** [v.at(i)]: throws std::out_of_range if out of bounds *)
Definition at_ {A} (l : list A) (i : Z) : result A :=
  match nthZ l i with Some a => Ok a | None => Throw (EOutOfRange "vector::at") end.

Lemma nthZ_some : forall A (l : list A) i a,
  nthZ l i = Some a -> (0 <= i < Z.of_nat (List.length l))%Z.
Proof.
  intros A l i a H. unfold nthZ in H. destruct (Z.ltb_spec i 0); [discriminate|].
  assert (Hn : nth_error l (Z.to_nat i) <> None) by congruence.
  apply nth_error_Some in Hn. lia.
Qed.
Lemma nthZ_in_range : forall A (l : list A) i,
  (0 <= i < Z.of_nat (List.length l))%Z -> exists a, nthZ l i = Some a.
Proof.
  intros A l i H. unfold nthZ. destruct (Z.ltb_spec i 0); [lia|].
  destruct (nth_error l (Z.to_nat i)) eqn:E; [eauto|].
  apply nth_error_None in E. lia.
Qed.
Lemma nthZ_of_nat : forall A (l : list A) n, nthZ l (Z.of_nat n) = nth_error l n.
Proof.
  intros. unfold nthZ. destruct (Z.ltb_spec (Z.of_nat n) 0); [lia|]. now rewrite Nat2Z.id.
Qed.
