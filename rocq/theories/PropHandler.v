(** Property theorems for C49 and C50: cell ids and the registry of XML handlers *)
From Coq Require Import ZArith List Bool Lia String Permutation.
From Verif Require Import Base RBase HandlerModel HandlerSpec CgaModel HandlerProofs.
Import ListNotations.
Open Scope string_scope.
Open Scope list_scope.
Open Scope Z_scope.

(** The cell (3,-5). *)
Example cell_case : is_int32 3 /\ is_int32 (-5) /\ getCellID 3 (-5) 1 = Ok (-21474836477).
Proof. unfold is_int32. split; [lia|]. split; [lia|reflexivity]. Qed.
(** Two handlers of the user, one of which replaces a handler of the library. *)
Definition ex_h : list hop := [HGet "MyDetector"; HSet "TPCParameters" 20; HSet "MyDetector" 21; HSet "TPCParameters" 0].
Example registry_case : given_once ex_h /\ last_set "TPCParameters" (built_in "TPCParameters") ex_h = 20 /\
  last_set "FTDParameters" (built_in "FTDParameters") ex_h = 5 /\ last_set "Other" (built_in "Other") ex_h = 0.
Proof.
  split; [|auto]. split; [cbn; repeat constructor; cbn; intuition discriminate|]. cbn. intros h [<-|[<-|[]]]; lia.
Qed.
Example registry_types_case : "A" <> "B" /\ built_in "A" = 0 /\ built_in "B" = 0.
Proof. split; [discriminate|auto]. Qed.

(** C49: the cell id of a sensitive point has the first id in its low 32 bits and the second in its high 32 bits,
    and fits a signed 64-bit number. *)
Theorem C49_decode : forall id0 id1 flag v, 0 <= id0 <= 2147483647 -> is_int32 id1 -> getCellID id0 id1 flag = Ok v ->
  id0 = v mod 4294967296 /\ id1 = v / 4294967296 /\ -9223372036854775808 <= v <= 9223372036854775807.
Proof. exact cell_decode. Qed.
Print Assumptions C49_decode.

(** C49: the cell id is given for every non-negative first id and every second id. *)
Theorem C49_value : forall id0 id1 flag, 0 <= id0 <= 2147483647 -> is_int32 id1 -> flag <> -1 ->
  getCellID id0 id1 flag = Ok (id1 * 4294967296 + id0).
Proof. exact cell_value. Qed.
Print Assumptions C49_value.

(** C49: different pairs of ids have different cell ids. *)
Theorem C49_injective : forall a b f a' b' f' v, is_int32 a -> is_int32 b -> is_int32 a' -> is_int32 b' ->
  getCellID a b f = Ok v -> getCellID a' b' f' = Ok v -> a = a' /\ b = b'.
Proof. exact cell_injective. Qed.
Print Assumptions C49_injective.

(** C49: exactly the points outside the world or outside sensitive volumes throw. *)
Theorem C49_throws : forall id0 id1 flag, (id0 < 0 \/ flag = -1) <-> exists e, getCellID id0 id1 flag = Throw (EGear e).
Proof. exact cell_throws. Qed.
Print Assumptions C49_throws.

(** C72: Mokka is initialised once, with the arguments of the first object; those of later objects are ignored. *)
Theorem C72_initialised_once : forall first later, fold_left cga_init (first :: later) [] = [first].
Proof. exact init_once. Qed.
Print Assumptions C72_initialised_once.

(** C50: after any history of calls the handler of a type is the one registered last; null registrations are
    ignored; without a registration it is the library's own, or null for an unknown type. *)
Theorem C50_last_handler : forall l s t, hrun new_hmgr l = Ok s -> fst (getHandler s t) = last_set t (built_in t) l.
Proof. exact handler_last. Qed.
Print Assumptions C50_last_handler.

(** C50: when every handler is handed over once, no call is undefined, the handlers returned were not
    deleted, and the destructor deletes each handler exactly once. *)
Theorem C50_memory_safe : forall l, given_once l -> exists s d, hrun new_hmgr l = Ok s /\
  (forall t, let h := fst (getHandler s t) in h = 0 \/ ~ In h (hm_dead s)) /\
  destroy s = Ok d /\ Permutation d (given l ++ [1; 2; 3; 4; 5; 6; 7]).
Proof. exact memory_safe. Qed.
Print Assumptions C50_memory_safe.

(** C50 (defect): registering a handler twice for a type deletes it while it stays registered; the destructor
    deletes it again. *)
Theorem C50_twice_refuted : forall l s t h, hrun new_hmgr l = Ok s -> h <> 0 -> hrun s [HSet t h; HSet t h] = UB \/
  exists s', hrun s [HSet t h; HSet t h] = Ok s' /\ fst (getHandler s' t) = h /\ In h (hm_dead s') /\ destroy s' = UB.
Proof. exact twice_same_type. Qed.
Print Assumptions C50_twice_refuted.

(** C50 (defect): a handler registered for two types and then replaced for one of them is deleted, but still
    returned for the other. *)
Theorem C50_two_types_refuted : forall t t' h h', t <> t' -> built_in t = 0 -> built_in t' = 0 -> h <> 0 -> h' <> 0 ->
  exists s, hrun new_hmgr [HSet t h; HSet t' h; HSet t h'] = Ok s /\ fst (getHandler s t') = h /\ In h (hm_dead s).
Proof. exact two_types. Qed.
Print Assumptions C50_two_types_refuted.
