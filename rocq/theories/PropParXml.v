(** Property theorems for C32: parameters in files *)
From Coq Require Import ZArith Reals List String Ascii Bool Lia Lra.
From Verif Require Import Base XmlModel XmlSpec NumModel NumSpec NumProofs HxModel HxProofs ParamsModel ParamsSpec ParXmlModel ParXmlSpec ParXmlProofs.
Import ListNotations.

(** Parameters of all six types, among them an empty list, a text of two words and a number that needs more than ten digits. *)
Definition ex_history : list set_call :=
  [("n", VInt 3); ("x", VDouble 2); ("title", VString "two words"); ("word", VString "a<b"); ("n", VInt (-7));
   ("layers", VInts [1; 2; 3]%Z); ("none", VInts []); ("xs", VDoubles [1; 2]%R); ("names", VStrings ["a"; "b"])]%string.
Example names_case : forall t k v, do_get t (after ex_history) k = Ok v -> no_nul k /\ charref_free k /\ text_ok v.
Proof.
  assert (C : forall s, plainb s = true -> no_nul s /\ charref_free s) by (intros s H; apply (plain_clean s H)).
  intros t k v G.
  assert (K : In k ["n"; "x"; "title"; "word"; "layers"; "none"; "xs"; "names"]%string /\ text_ok v).
  { destruct t; cbn [do_get] in G; apply rmap_ok in G; destruct G as [a [G ->]];
    match type of G with ?f _ _ = _ => unfold f in G end; apply get_in in G;
    try (apply (after_sorted ex_history TInt) || apply (after_sorted ex_history TDouble) || apply (after_sorted ex_history TString)
         || apply (after_sorted ex_history TInts) || apply (after_sorted ex_history TDoubles) || apply (after_sorted ex_history TStrings));
    cbn in G; repeat (destruct G as [G|G]; [injection G as <- <-; split; [cbn; tauto|]; cbn [text_ok]|]); try contradiction G.
    - unfold is_int. lia.
    - exact I.
    - apply C. reflexivity.
    - apply C. reflexivity.
    - intros z Z. unfold is_int. cbn in Z. lia.
    - intros z [].
    - exact I.
    - intros s [<-|[<-|[]]]; apply C; reflexivity. }
  destruct K as [K T]. split; [|split]; [| |exact T]; cbn in K; repeat (destruct K as [<-|K]; [apply C; reflexivity|]); destruct K.
Qed.
Example survivors_case : survives (VDouble 2) /\ survives (VDoubles [1; 2]%R) /\ survives (VString "a<b") /\ ~ survives (VString "two words") /\
  ~ survives (VInts []) /\ (exists x, ~ survives (VDouble x)).
Proof.
  split; [apply (whole_kept 2); reflexivity|].
  split; [split; [discriminate|]; intros x [<-|[<-|[]]]; [apply (whole_kept 1) | apply (whole_kept 2)]; reflexivity|].
  split.
  { split; [discriminate|]. split; [|apply (plain_clean "a<b"); reflexivity]. apply (wordb_spec "a<b"). reflexivity. }
  split; [intros [_ [H _]]; apply H; exists "two"%string, "words"%string; reflexivity|].
  split; [intros H; apply H; reflexivity|]. destruct lossy as [x [_ [_ L]]]. exists x. exact L.
Qed.

(** A saved and loaded parameter set is the same if and only if every parameter can survive. *)
Theorem C32_params_survive : forall h, let p := after h in
  (forall t k v, do_get t p k = Ok v -> no_nul k /\ charref_free k /\ text_ok v) ->
  exists text, save_params p = Ok text /\
    (load_params text = Ok p <-> forall t k v, do_get t p k = Ok v -> survives v).
Proof. exact params_survive. Qed.
Print Assumptions C32_params_survive.

(** Each parameter on its own comes back exactly if and only if it can survive; no parameter appears that was not there. *)
Theorem C32_value_survives : forall h, let p := after h in
  (forall t k v, do_get t p k = Ok v -> no_nul k /\ charref_free k /\ text_ok v) ->
  exists text q, save_params p = Ok text /\ load_params text = Ok q /\
    (forall t k v, do_get t p k = Ok v -> (do_get t q k = Ok v <-> survives v)) /\
    (forall t k v, do_get t q k = Ok v -> exists w, do_get t p k = Ok w).
Proof. exact value_survives. Qed.
Print Assumptions C32_value_survives.

(** Double parameters that are not exactly kept are kept up to a relative error of 5.001e-10. *)
Theorem C32_doubles_nearly : forall h, let p := after h in
  (forall t k v, do_get t p k = Ok v -> no_nul k /\ charref_free k /\ text_ok v) ->
  exists text q, save_params p = Ok text /\ load_params text = Ok q /\
    forall k x, getDoubleVal p k = Ok x -> normal x ->
    exists y, getDoubleVal q k = Ok y /\ (Rabs (y - x) <= 5001 / 10000000000000 * Rabs x)%R.
Proof. exact doubles_nearly. Qed.
Print Assumptions C32_doubles_nearly.
