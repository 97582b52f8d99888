(** C01, C02: named parameters. *)
From Coq Require Import ZArith List String Reals Sorted.
From Verif Require Import Base ParamsModel ParamsSpec ParamsProofs.
Import ListNotations.
Open Scope string_scope.

(** C01: whatever was called before, a getter returns what the last set call with its key and its
    type stored; without such a call it throws UnknownParameterException naming the key. *)
Theorem C01_last_write_wins : forall (h : list set_call) (t : ptype) (k : string),
  (exists v, last_stored h t k v /\ do_get t (after h) k = Ok v) \/
  (never_stored h t k /\ do_get t (after h) k = Throw (EUnknownParameter k)).
Proof. exact last_write_wins. Qed.
Print Assumptions C01_last_write_wins.

Example C01_witness :
  let h := [("a", VInt 1); ("b", VString "x"); ("a", VString "y"); ("a", VInt 2)] in
  last_stored h TInt "a" (VInt 2) /\ do_get TInt (after h) "a" = Ok (VInt 2) /\
  do_get TString (after h) "a" = Ok (VString "y") /\ never_stored h TInts "a".
Proof.
  repeat split.
  - exists [("a", VInt 1); ("b", VString "x"); ("a", VString "y")], []. repeat split; auto.
  - intros v H. simpl in H.
    destruct H as [H|[H|[H|[H|[]]]]]; inversion H; subst; discriminate.
Qed.

(** C02: the key listing of a type is exactly the set of keys stored with that type, in strictly
    increasing order (hence without duplicates). *)
Theorem C02_keys_exact_sorted : forall (h : list set_call) (t : ptype),
  StronglySorted slt (do_keys t (after h)) /\
  (forall k, In k (do_keys t (after h)) <-> exists v, In (k, v) h /\ type_of v = t).
Proof. exact keys_exact_sorted. Qed.
Print Assumptions C02_keys_exact_sorted.

Example C02_witness :
  do_keys TInt (after [("b", VInt 1); ("a", VInt 3); ("c", VString "x"); ("b", VInt 2)]) = ["a"; "b"].
Proof. reflexivity. Qed.
