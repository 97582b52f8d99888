(** C94: what references to values and key lists of a parameter object show later on, loops over the key lists, and threads. *)
From Coq Require Import Arith List String Bool Sorted Lia.
From Verif Require Import Base BaseProofs RefModel RefSpec RefProofs RefProofs2.
Import ListNotations.

(** A reference to a value shows what was last set for that key, whatever has been called since. *)
Theorem C94_value_reference : forall W (h h' : list (@call W)) k key,
  (has_key h k key -> exists n v, get_ref (do_calls obj_new h) k key = Ok n /\ deref (do_calls obj_new (h ++ h')) n = Ok v /\ stored (h ++ h') k key v) /\
  (~ has_key h k key -> get_ref (do_calls obj_new h) k key = Throw (EUnknownParameter key)).
Proof.
  intros W h h' k key. pose proof (map_spec h k key) as M. unfold get_ref. destruct (sm_find key (o_map (do_calls obj_new h) k)) as [n|] eqn:F; split; intros H.
  - exists n. pose proof (find_stays h' _ k key n F) as F'. rewrite <- calls_app in F'. pose proof (map_spec (h ++ h') k key) as M'. rewrite F' in M'. destruct M' as (v & A & B). exists v. unfold deref. rewrite A. auto.
  - exfalso. apply H. destruct M as (v & _ & h1 & h2 & -> & _). exists v. apply in_or_app. right. now left.
  - contradiction.
  - reflexivity.
Qed.

(** References to values of different keys or kinds show different variables. *)
Theorem C94_apart : forall W (h : list (@call W)) k key k' key' n, get_ref (do_calls obj_new h) k key = Ok n -> get_ref (do_calls obj_new h) k' key' = Ok n -> k = k' /\ key = key'.
Proof.
  intros W h k key k' key' n. unfold get_ref. destruct (calls_inj obj_new h new_inj) as [_ I]. destruct (sm_find key _) as [m|] eqn:F; [|discriminate]. destruct (sm_find key' _) as [m'|] eqn:F'; [|discriminate].
  intros A B. injection A as ->. injection B as ->. now apply I with n.
Qed.

(** A key list shows the keys there were when its function was last called. *)
Theorem C94_key_list : forall W (h : list (@call W)) k, keys_then h k (o_keys (do_calls obj_new h) k).
Proof. intros W; exact keys_vec. Qed.

(** A loop over a key list by iterator: every key once, in order, whatever the body does, if it does not ask for the same list ... *)
Theorem C94_iterator : forall W (h : list (@call W)) k body, exists l, keys_of h k l /\
  ((forall key, In key l -> ~ In (CKeys k) (body key)) -> forall n, List.length l < n ->
    for_iterator n k body (do_calls obj_new h) = Some (Ok (l, do_calls obj_new (h ++ CKeys k :: flat_map body l)))) /\
  (* ... and undefined behaviour if it does *)
  ((exists key, In key l /\ In (CKeys k) (body key)) -> forall n, List.length l < n -> for_iterator n k body (do_calls obj_new h) = Some UB).
Proof.
  intros W h k body. exists (sm_keys (o_map (do_calls obj_new h) k)). split; [apply map_keys|]. unfold for_iterator. cbv zeta. destruct (get_keys_spec (do_calls obj_new h) k) as (_ & _ & K & _). split.
  - intros Q n L. rewrite <- K in Q, L |- *. rewrite (it_loop_ok body k _ (List.length (o_keys (get_keys (do_calls obj_new h) k) k))); auto; try lia. cbn [skipn]. do 3 f_equal. rewrite calls_app. reflexivity.
  - intros (key & I & B) n L. rewrite <- K in I, L. apply (it_loop_bad body k _ (List.length (o_keys (get_keys (do_calls obj_new h) k) k)) n 0 _ key); auto; lia.
Qed.

(** A loop by index: the same, even if the body asks for the list, as long as it sets no new key of that kind. *)
Theorem C94_index : forall W (h : list (@call W)) k body, (forall key key' v, has_key h k key -> In (CSet k key' v) (body key) -> has_key h k key') ->
  exists l, keys_of h k l /\ forall n, List.length l < n -> for_index n k body (do_calls obj_new h) = Some (l, do_calls obj_new (h ++ CKeys k :: flat_map body l)).
Proof.
  intros W h k body Q. exists (sm_keys (o_map (do_calls obj_new h) k)). pose proof (map_keys h k) as [S M]. split; [split; assumption|]. intros n L. unfold for_index.
  destruct (get_keys_spec (do_calls obj_new h) k) as ([A B] & _ & K & _). rewrite (ix_loop_ok body k (List.length (o_keys (get_keys (do_calls obj_new h) k) k))).
  - cbn [skipn]. rewrite K. do 2 f_equal. rewrite calls_app. reflexivity.
  - lia.
  - rewrite K. exact L.
  - now rewrite K, A.
  - rewrite K. intros key key' v I C. apply M. apply (Q key key' v); [now apply M|exact C].
Qed.

(** Threads that only read, of which no two call the same key function: each sees what it would see alone. *)
Theorem C94_threads : forall W (h : list (@call W)) ps sched, (forall p, In p ps -> reads_only p) ->
  (forall i j k, In (CKeys k) (nth i ps []) -> In (CKeys k) (nth j ps []) -> i = j) ->
  forall i s, In (i, s) (snd (run (do_calls obj_new h) (threads (do_calls obj_new h) ps) sched)) -> right h s.
Proof.
  intros W h ps sched RO D i s I. apply run_fine in I; [|now apply threads_fine]. destruct s as [k l|k key r]; cbn [right_now right] in *.
  - subst. apply map_keys.
  - pose proof (map_spec h k key) as M. unfold get_ref, deref in I. destruct (sm_find key (o_map (do_calls obj_new h) k)) as [n|] eqn:F; cbn [rbind] in I.
    + destruct M as (v & A & B). rewrite A in I. left. exists v. auto.
    + right. auto.
Qed.
(** Two threads that call the same one, although it is const: one may see every key twice. *)
Theorem C94_threads_refuted : forall W (h : list (@call W)) k key, has_key h k key -> exists sched l,
  In (0, SKeys k l) (snd (run (do_calls obj_new h) (threads (do_calls obj_new h) [[CKeys k]; [CKeys k]]) sched)) /\ ~ keys_of h k l.
Proof.
  intros W h k key H. destruct (twice (do_calls obj_new h) k) as (sched & I). exists sched. eexists. split; [exact I|]. intros [S _]. pose proof (map_keys h k) as [_ M].
  apply M in H. destruct (sm_keys (o_map (do_calls obj_new h) k)) as [|x l]; [destruct H|]. clear - S. cbn [List.app] in S. inversion S as [|? ? _ F]; subst. rewrite Forall_forall in F.
  specialize (F x ltac:(apply in_or_app; right; now left)). unfold slt in F. rewrite scompare_refl in F. discriminate.
Qed.
Print Assumptions C94_value_reference.
Print Assumptions C94_apart.
Print Assumptions C94_key_list.
Print Assumptions C94_iterator.
Print Assumptions C94_index.
Print Assumptions C94_threads.
Print Assumptions C94_threads_refuted.

(** A loop by index that sets a new key and asks for the list again: one key is seen twice, one not at all. *)
Theorem C94_index_refuted : exists (h : list (@call nat)) k body, forall n, 3 <= n ->
  exists o, for_index n k body (do_calls obj_new h) = Some (["b"; "b"]%string, o) /\ o_keys o k = ["a"; "b"]%string.
Proof.
  exists [CSet KInt "b" 1], KInt, (fun _ => [CSet KInt "a" 2; CKeys KInt]). intros n L. destruct n as [|[|[|n]]]; try lia. eexists. split; vm_compute; reflexivity.
Qed.
Print Assumptions C94_index_refuted.

(** ** cases *)
Definition demo : list (@call nat) := [CSet KInt "n" 1; CSet KString "n" 2; CKeys KInt; CSet KInt "a" 3; CSet KString "n" 4].
Example has_case : has_key demo KString "n" /\ has_key demo KInt "n" /\ ~ has_key demo KDouble "n".
Proof. split; [|split]; [exists 2; cbn; tauto|exists 1; cbn; tauto|]. intros (v & H). cbn in H. intuition discriminate. Qed.
Example reference_case : exists n, get_ref (do_calls obj_new (firstn 2 demo)) KString "n" = Ok n /\ deref (do_calls obj_new (firstn 2 demo)) n = Ok 2 /\ deref (do_calls obj_new demo) n = Ok 4.
Proof. exists 1. vm_compute. auto. Qed.
Example stale_case : o_keys (do_calls obj_new demo) KInt = ["n"]%string /\ o_keys (get_keys (do_calls obj_new demo) KInt) KInt = ["a"; "n"]%string.
Proof. vm_compute. auto. Qed.
Example loops_case : for_iterator 3 KInt (fun key => [CSet KInt (key ++ "x") 0; CKeys KString]) (do_calls obj_new demo) =
    Some (Ok (["a"; "n"]%string, do_calls obj_new (demo ++ [CKeys KInt; CSet KInt "ax" 0; CKeys KString; CSet KInt "nx" 0; CKeys KString]))) /\
  for_iterator 3 KInt (fun key => [CKeys KInt]) (do_calls obj_new demo) = Some UB /\
  (forall key key' v, has_key demo KInt key -> In (@CSet nat KInt key' v) [CSet KInt "a" 9; @CKeys nat KInt] -> has_key demo KInt key').
Proof. split; [vm_compute; reflexivity|]. split; [vm_compute; reflexivity|]. intros key key' v _ [E|[E|[]]]; [|discriminate]. injection E as <- <-. exists 3. cbn. tauto. Qed.
Example threads_case : (forall p, In p [[CKeys KInt; @CGet nat KString "n"]; [CKeys KString; CGet KString "n"]] -> reads_only p) /\
  (forall i j k, In (@CKeys nat k) (nth i [[CKeys KInt; CGet KString "n"]; [CKeys KString; CGet KString "n"]] []) ->
    In (@CKeys nat k) (nth j [[CKeys KInt; CGet KString "n"]; [CKeys KString; CGet KString "n"]] []) -> i = j) /\
  snd (run (do_calls obj_new demo) (threads (do_calls obj_new demo) [[CKeys KInt; CGet KString "n"]; [CKeys KString; CGet KString "n"]]) [0; 1; 0; 1; 0; 1; 0; 1; 0]) =
    [(1, SKeys KString ["n"]); (0, SKeys KInt ["a"; "n"]); (1, SVal KString "n" (Ok 4)); (0, SVal KString "n" (Ok 4))]%string.
Proof.
  split; [|split; [|vm_compute; reflexivity]].
  - intros p [<-|[<-|[]]] k key v H; cbn in H; intuition discriminate.
  - intros [|[|i]] [|[|j]] k A B; auto; cbn in A, B; try (destruct i; destruct A); try (destruct j; destruct B); try tauto; intuition congruence.
Qed.
