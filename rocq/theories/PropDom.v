(** C91: the nodes of documents under linking, inserting, copying, replacing, removing, assigning and deleting. *)
From Coq Require Import ZArith List String Bool Lia Permutation.
From Verif Require Import DomModel DomSpec DomProofs DomProofs2 DomProofs3 DomProofs4 DomProofs5.
Import ListNotations.
Open Scope Z_scope.

(** Whatever calls within the rules have been made, the links between the nodes are those of some trees ... *)
Theorem C91_links : forall h, reach h -> exists F, links h F.
Proof. intros h R. destruct (reach_live h R) as (F & H). exists F. now apply live_links. Qed.
Print Assumptions C91_links.

(** ... which are determined ... *)
Theorem C91_trees : forall h F F', links h F -> links h F' -> Permutation F F'.
Proof. exact forest_unique. Qed.
Print Assumptions C91_trees.

(** ... and each further call within the rules returns, without undefined behaviour or failed assertion, having done
    what it should: once with as many turns as there are nodes, and with any number of turns if it ends at all. *)
Theorem C91_calls : forall h F c k, reach h -> links h F -> allowed F c -> (List.length (all F) <= k)%nat ->
  exists h' r F', step k h c = DOk (h', r) /\ did F c r F' /\ links h' F'.
Proof.
  intros h F c k R L A K. destruct (reach_live h R) as (F0 & H0). pose proof (links_live h F F0 H0 L) as H.
  destruct (step_ok k h F c H A K) as (h' & r & F' & E & D & H'). exists h', r, F'. split; [exact E|]. split; [exact D|]. now apply live_links.
Qed.
Print Assumptions C91_calls.
Theorem C91_calls_any : forall h F c k, reach h -> links h F -> allowed F c ->
  step k h c = DFuel \/ exists h' r F', step k h c = DOk (h', r) /\ did F c r F' /\ links h' F'.
Proof.
  intros h F c k R L A. destruct (C91_calls h F c (Nat.max k (List.length (all F))) R L A ltac:(lia)) as (h' & r & F' & E & D).
  destruct (step_le k (Nat.max k (List.length (all F))) h c ltac:(lia)) as [X|X]; [now left|right]. rewrite X. eauto.
Qed.
Print Assumptions C91_calls_any.

(** When all trees have been deleted nothing is left. *)
Theorem C91_no_leak : forall h, links h [] -> forall a, cells h a = None.
Proof. intros h (_ & A & _) a. destruct (cells h a) as [c|] eqn:E; [|reflexivity]. exfalso. apply (proj1 (A a)). rewrite E. discriminate. Qed.
Print Assumptions C91_no_leak.

(** Going through the children visits each once, in order; with a value, those that have it. *)
Theorem C91_iterate : forall h F p d ch l, links h F -> node_of F (Node p d ch) -> (visits h p None l <-> l = map addr ch).
Proof.
  intros h F p d ch l L I. pose proof (visits_all h F p d ch L I) as V. split; [|intros ->; exact V]. intros V'. eapply visits_det; eassumption.
Qed.
Print Assumptions C91_iterate.
Theorem C91_iterate_value : forall h F p d ch v k l, links h F -> node_of F (Node p d ch) -> (List.length ch <= k)%nat ->
  (visits_value k h p v None l <-> l = map addr (filter (with_value v) ch)).
Proof.
  intros h F p d ch v k l L I K. pose proof (visits_value_all h F p d ch L I v k K) as V. split; [|intros ->; exact V]. intros V'. eapply visits_value_det; eassumption.
Qed.
Print Assumptions C91_iterate_value.
Theorem C91_last_child : forall h F p d ch v k, links h F -> node_of F (Node p d ch) -> (List.length ch < k)%nat ->
  LastChildV k h p v = DOk (last_addr (filter (with_value v) ch)).
Proof. intros h F p d ch v k L I K. now apply (last_value h F p d ch L I). Qed.
Print Assumptions C91_last_child.

(** GetDocument returns the nearest document at or above the node, null if there is none. *)
Theorem C91_document : forall h F a k r, links h F -> In a (all F) -> (List.length (all F) < k)%nat ->
  (GetDocument k h (Some a) = DOk r <-> doc_of F a r).
Proof.
  intros h F a k r L I K. destruct (document_ok h F a k L I K) as (r' & E & D). split.
  - intros E'. assert (r = r') by congruence. now subst.
  - intros D'. rewrite E. f_equal. eapply doc_det; [apply L|exact D|exact D'].
Qed.
Print Assumptions C91_document.

(** The rules are needed.  RemoveChild of something that is not a child fails its assertion; *)
Theorem C91_remove_stranger_refuted : forall h F p b k, reach h -> links h F -> In b (all F) -> ~ child_of F p b -> step k h (NRemove p b) = DAbort.
Proof.
  intros h F p b k R L I C. destruct (reach_live h R) as (F0 & H0). eapply remove_stranger; [eapply links_live; eassumption|exact I|exact C].
Qed.
Print Assumptions C91_remove_stranger_refuted.
(** an element or document assigned to itself loses its children; *)
Theorem C91_self_assign_refuted : forall h F a d ch k, reach h -> links h F -> node_of F (Node a d ch) -> (List.length (all F) <= k)%nat ->
  exists h', step k h (NAssign a a) = DOk (h', None) /\ links h' (place a (Node a d []) F).
Proof.
  intros h F a d ch k R L I K. destruct (reach_live h R) as (F0 & H0). destruct (self_assign k h F a d ch (links_live h F F0 H0 L) I K) as (h' & E & H').
  exists h'. split; [exact E|]. now apply live_links.
Qed.
Print Assumptions C91_self_assign_refuted.
(** assigned from a node below itself it reads that after deleting it; *)
Theorem C91_assign_below_refuted : forall h F a d ch b k, reach h -> links h F -> node_of F (Node a d ch) -> In b (all ch) ->
  (List.length (all F) <= k)%nat -> step k h (NAssign a b) = DUB.
Proof.
  intros h F a d ch b k R L I J K. destruct (reach_live h R) as (F0 & H0). eapply assign_below; [eapply links_live; eassumption|exact I|exact J|exact K].
Qed.
Print Assumptions C91_assign_below_refuted.

(** ** examples *)
Definition doc : data := mkData KDoc "d".
Definition el (v : string) : data := mkData KElem v.
Fixpoint run (k : nat) (h : heap) (cs : list call) : dres heap :=
  match cs with [] => DOk h | c :: cs => r <-- step k h c ;; run k (fst r) cs end.
(** a node linked into two trees is deleted twice *)
Theorem C91_link_twice_refuted : exists cs, run 9 no_nodes (cs ++ [NDelete 1]) <> DUB /\
  cs = [NNew (el "p"); NNew (el "q"); NNew (el "n"); NLink 1 3; NLink 2 3] /\ run 9 no_nodes (cs ++ [NDelete 1; NDelete 2]) = DUB.
Proof. eexists. split; [|split; [reflexivity|reflexivity]]. vm_compute. discriminate. Qed.
Print Assumptions C91_link_twice_refuted.

Ltac cases_in := repeat match goal with H : In _ _ |- _ => cbn in H | H : False |- _ => contradiction H | H : _ \/ _ |- _ => destruct H end.
Ltac nodup := match goal with |- NoDup [] => apply NoDup_nil | |- NoDup (_ :: _) => apply NoDup_cons; [cbn; intuition lia|nodup] end.
Ltac show_links := split; [cbn; nodup|split; [|split]];
  [ intros a; cbn; unfold upd; repeat match goal with |- context [a =? ?x] => destruct (Z.eqb_spec a x); [subst; cbn; split; [auto 10|discriminate]|] end;
    split; [congruence|intros; exfalso; intuition congruence]
  | intros t H; cases_in; subst; eexists; (split; [reflexivity|]); repeat split; reflexivity
  | intros a d ch H; unfold node_of in H; cases_in; match goal with H : Node _ _ _ = Node _ _ _ |- _ => injection H as <- <- <- end;
    (split; [eexists; split; [reflexivity|]; repeat split; reflexivity|]);
    intros i x E; repeat (destruct i as [|i]; cbn in E; [try discriminate E; injection E as <-; eexists; split; [reflexivity|]; repeat split; reflexivity|]);
    destruct i; discriminate ].
Definition after (cs : list call) : heap := match run 9 no_nodes cs with DOk h => h | _ => no_nodes end.
Ltac next cs c F1 := eapply (reach_step (after cs) F1 9 c); [|cbv [after]; show_links| |reflexivity].
(** a document with an element that has a child and a copy of it *)
Definition demo_calls : list call := [NNew doc; NNew (el "a"); NLink 1 2; NNew (el "b"); NLink 2 3; NInsEnd 2 3].
Definition demo_forest : forest := [Node 1 doc [Node 2 (el "a") [Node 3 (el "b") []; Node 4 (el "b") []]]].
Example demo_reach : reach (after demo_calls).
Proof.
  next [NNew doc; NNew (el "a"); NLink 1 2; NNew (el "b"); NLink 2 3] (NInsEnd 2 3) [Node 1 doc [Node 2 (el "a") [Node 3 (el "b") []]]]; [|cbn; auto].
  next [NNew doc; NNew (el "a"); NLink 1 2; NNew (el "b")] (NLink 2 3) [Node 1 doc [Node 2 (el "a") []]; Node 3 (el "b") []];
    [|exists [Node 1 doc [Node 2 (el "a") []]], (Node 3 (el "b") []), []; cbn; auto].
  next [NNew doc; NNew (el "a"); NLink 1 2] (NNew (el "b")) [Node 1 doc [Node 2 (el "a") []]]; [|exact Logic.I].
  next [NNew doc; NNew (el "a")] (NLink 1 2) [Node 1 doc []; Node 2 (el "a") []]; [|exists [Node 1 doc []], (Node 2 (el "a") []), []; cbn; auto].
  next [NNew doc] (NNew (el "a")) [Node 1 doc []]; [|exact Logic.I].
  next (@nil call) (NNew doc) (@nil tree); [|exact Logic.I]. apply reach_start.
Qed.
Example demo_links : links (after demo_calls) demo_forest.
Proof. unfold demo_forest. show_links. Qed.
Example demo_allowed : allowed demo_forest (NReplace 2 3 2) /\ allowed demo_forest (NInsBefore 2 (Some 4) 1) /\ allowed demo_forest (NRemove 2 4) /\
  allowed demo_forest (NAssign 3 4) /\ allowed demo_forest (NDelete 1) /\ ~ child_of demo_forest 1 3.
Proof.
  split; [cbn; auto 8|]. split; [cbn; auto 8|]. split; [exists (el "a"), [Node 3 (el "b") []; Node 4 (el "b") []]; cbn; auto|]. split.
  - exists (Node 3 (el "b") []), (Node 4 (el "b") []). cbn. intuition lia.
  - split; [cbn; auto|]. intros (d & ch & H & J). cbn in H. destruct H as [H|[H|[H|[H|[]]]]]; inversion H; subst; cbn in J; intuition discriminate.
Qed.
