(** Property theorems for C89: the memory of pad layouts, TPC modules and TPCs. *)
From Coq Require Import ZArith List Bool Lia.
From Verif Require Import MemModel MemSpec MemProofs MemProofs2 MemProofs3.
Import ListNotations.
Open Scope Z_scope.

(** C89: after any calls within the rules, no call within the rules uses or deletes something that is gone. *)
Theorem C89_safe : forall m b c, reach m b -> allowed b c -> step m c <> MUB.
Proof. intros m b c R A E. assert (H := step_inv m b c (reach_inv m b R) A). rewrite E in H. exact H. Qed.
Print Assumptions C89_safe.

(** C89: a call that throws changes nothing. *)
Theorem C89_throw : forall m b c m', reach m b -> allowed b c -> step m c = MThrow m' -> m' = m.
Proof. intros m b c m' R. apply throw_same. apply reach_inv. exact R. Qed.
Print Assumptions C89_throw.

(** C89: alive is what the book says, no less and no more. *)
Theorem C89_exact : forall m b, reach m b ->
  (forall v, vecs m v = true <-> b_pads b v <> None) /\
  (forall l, lays m l <> None <-> b_lay b l <> None) /\
  (forall x, mods m x <> None <-> b_mod b x <> None) /\
  (forall t, tpcs m t <> None <-> b_tpc b t = true).
Proof. intros m b R. apply reach_inv in R. destruct R. auto. Qed.
Print Assumptions C89_exact.

(** C89: nothing leaks.  When the user has nothing left of their own, nothing is alive. *)
Theorem C89_no_leak : forall m b, reach m b ->
  (forall l, b_lay b l <> Some None) -> (forall x, b_mod b x <> Some None) -> (forall t, b_tpc b t <> true) ->
  (forall v, vecs m v = false) /\ (forall l, lays m l = None) /\ (forall x, mods m x = None) /\ (forall t, tpcs m t = None).
Proof.
  intros m b R NL NM NT. apply reach_inv in R. destruct R.
  assert (T : forall t, tpcs m t = None).
  { intros t. destruct (tpcs m t) eqn:E; [|reflexivity]. exfalso. apply (NT t). apply i_tpc. congruence. }
  assert (M : forall x, mods m x = None).
  { intros x. destruct (mods m x) eqn:E; [|reflexivity]. exfalso. assert (H : b_mod b x <> None) by (apply i_mod; congruence).
    destruct (b_mod b x) as [[t|]|] eqn:Q; [|apply (NM x); exact Q|congruence].
    apply i_in in Q. destruct Q as [y [Q _]]. rewrite T in Q. discriminate. }
  assert (L : forall l, lays m l = None).
  { intros l. destruct (lays m l) eqn:E; [|reflexivity]. exfalso. assert (H : b_lay b l <> None) by (apply i_lay; congruence).
    destruct (b_lay b l) as [[x|]|] eqn:Q; [|apply (NL l); exact Q|congruence].
    apply i_own in Q. destruct Q as [y [Q _]]. rewrite M in Q. discriminate. }
  repeat split; auto. intros v. destruct (vecs m v) eqn:E; [|reflexivity]. exfalso.
  assert (H : b_pads b v <> None) by (apply i_vec; exact E). destruct (b_pads b v) as [l|] eqn:Q; [|congruence].
  apply i_pad in Q. destruct Q as [x [Q _]]. rewrite L in Q. discriminate.
Qed.
Print Assumptions C89_no_leak.

(** C89: the list of pads of a row is made once.  Asked again after any call that does not end its life (assignment to
    its layout or module, deletion), getPadsInRow returns the same list. *)
Theorem C89_same_list : forall m b c m' r l row v, reach m b -> allowed b c -> b_lay b l <> None ->
  step m (CPads l row) = MOk m (ORef v) -> step m c = MOk m' r -> b_pads (booked b c r) v = Some l ->
  step m' (CPads l row) = MOk m' (ORef v).
Proof.
  intros m b c m' r l row v R A NL E0 E BP. apply reach_inv in R. cbn [step] in E0.
  destruct (lays m l) as [x|] eqn:EL; [|discriminate].
  assert (EN : entry x row = Some (Some v)).
  { destruct (entry x row) as [[w|]|] eqn:Q; [congruence | | congruence]. exfalso. injection E0 as E1 E2. subst v.
    assert (H : next (bump (set_vecs (set_lay m l (Some (set_entry x row (next m)))) (upd (vecs m) (next m) true))) = next m) by (rewrite E1; reflexivity).
    cbn [bump next set_vecs set_lay] in H. lia. }
  destruct (pads_stay m b c m' r l row v x R A E EL EN BP) as [x' [E1 E2]]. cbn [step]. rewrite E1, E2. reflexivity.
Qed.
Print Assumptions C89_same_list.
Theorem C89_asked_again : forall m b l row m' v, reach m b -> b_lay b l <> None ->
  step m (CPads l row) = MOk m' (ORef v) -> step m' (CPads l row) = MOk m' (ORef v).
Proof.
  intros m b l row m' v R NL E. cbn [step] in *. destruct (lays m l) as [x|] eqn:EL; [|discriminate].
  destruct (entry x row) as [[w|]|] eqn:Q; [| |discriminate].
  - injection E as <- <-. rewrite EL, Q. reflexivity.
  - injection E as <- <-. cbn [bump set_vecs set_lay lays]. rewrite upd_eq. unfold entry in *. destruct (row <? 0); [discriminate|].
    cbn [set_entry l_cache]. rewrite nth_error_app2 by apply firstn_le_length.
    assert (L : (Z.to_nat row < List.length (l_cache x))%nat) by (apply nth_error_Some; congruence).
    rewrite firstn_length_le by lia. rewrite Nat.sub_diag. reflexivity.
Qed.
Print Assumptions C89_asked_again.

(** C89: a TPC refuses a module it has just been given. *)
Theorem C89_again_refused : forall m t x m1,
  step m (CAddModule t (Some x)) = MOk m1 ODone -> step m1 (CAddModule t (Some x)) = MThrow m1.
Proof. exact again_refused. Qed.
Print Assumptions C89_again_refused.

(** C89 (outside the rules): assigning a module to itself uses its deleted layout. *)
Theorem C89_self_assignment_refuted : forall m b x, reach m b -> b_mod b x <> None -> step m (CAssignModule x x) = MUB.
Proof. intros m b x R. apply self_assign_ub. apply reach_inv. exact R. Qed.
Print Assumptions C89_self_assignment_refuted.

(** C89 (outside the rules): a layout given to two modules is deleted twice. *)
Theorem C89_shared_layout_refuted : forall m b x l id ty, reach m b -> b_mod b x = Some None -> b_lay b l = Some (Some x) ->
  exists a m1 m2, step m (CNewModule id l ty) = MOk m1 (OAddr a) /\ step m1 (CDelModule x) = MOk m2 ODone /\
    step m2 (CDelModule a) = MUB.
Proof.
  intros m b x l id ty R H1 H2. exists (next m). apply (shared_layout_ub m b); auto. apply reach_inv. exact R.
Qed.
Print Assumptions C89_shared_layout_refuted.

(** C89 (outside the rules): a module that two TPCs accept is deleted twice. *)
Theorem C89_two_tpcs_refuted : forall m b x t u m1, reach m b -> b_mod b x = Some (Some t) -> u <> t ->
  step m (CAddModule u (Some x)) = MOk m1 ODone ->
  exists m2, step m1 (CDelTpc t) = MOk m2 ODone /\ step m2 (CDelTpc u) = MUB.
Proof. intros m b x t u m1 R. apply two_tpcs_ub. apply reach_inv. exact R. Qed.
Print Assumptions C89_two_tpcs_refuted.

(** run calls one after the other *)
Fixpoint runs (m : mem) (cs : list call) : mres :=
  match cs with
  | [] => MOk m ODone
  | c :: t => match step m c with MOk m' _ | MThrow m' => runs m' t | MUB => MUB end
  end.
Fixpoint book_of (m : mem) (b : book) (cs : list call) : book :=
  match cs with
  | [] => b
  | c :: t => match step m c with MOk m' r => book_of m' (booked b c r) t | MThrow m' => book_of m' b t | MUB => b end
  end.

(** layout 1 with two rows, a list of pads 2, module 3, its copy 5 with layout 4, TPC 6 with both *)
Definition story : list call :=
  [CNewLayout Fixed 2; CPads 1 1; CNewModule 7 1 0; CCopyModule 3; CNewTpc 0; CAddModule 6 (Some 3); CAddModule 6 (Some 5);
   CNewLayout Rect 0; CNewModule 8 7 0; CAddModule 6 (Some 8); CPads 4 0].

Lemma reach_more : forall cs m b, reach m b ->
  (fix ok m b cs := match cs with
                    | [] => True
                    | c :: t => allowed b c /\ match step m c with MOk m' r => ok m' (booked b c r) t | MThrow m' => ok m' b t | MUB => True end
                    end) m b cs ->
  match runs m cs with MOk m' _ => reach m' (book_of m b cs) | _ => True end.
Proof.
  induction cs as [|c cs IH]; intros m b R H; [exact R|]. destruct H as [A H]. cbn [runs book_of].
  destruct (step m c) as [m' r|m'|] eqn:E; [| |exact I].
  - apply IH; [|exact H]. apply (reach_ok m b c m' r R A E).
  - apply IH; [|exact H]. apply (reach_throw m b c m' R A E).
Qed.

Example story_demo : exists m, runs start story = MOk m ODone /\ reach m (book_of start empty_book story) /\
  b_mod (book_of start empty_book story) 3 = Some (Some 6) /\ b_mod (book_of start empty_book story) 8 = Some (Some 6) /\
  b_mod (book_of start empty_book story) 5 = Some None /\ b_lay (book_of start empty_book story) 4 = Some (Some 5) /\
  b_pads (book_of start empty_book story) 2 = Some 1 /\ b_pads (book_of start empty_book story) 9 = Some 4 /\
  b_tpc (book_of start empty_book story) 6 = true.
Proof.
  assert (H := reach_more story start empty_book reach_start).
  destruct (runs start story) as [m r|m|] eqn:E; [| |]; try (vm_compute in E; discriminate).
  exists m. split; [vm_compute in E; injection E as <- <-; vm_compute; reflexivity|].
  split; [|vm_compute; auto 10]. apply H. vm_compute. intuition discriminate.
Qed.

(** then deleting the copy and the TPC leaves nothing *)
Example story_end : exists m, runs start (story ++ [CDelModule 5; CDelTpc 6]) = MOk m ODone /\
  forallb (fun a => negb (vecs m a) && match lays m a, mods m a, tpcs m a with None, None, None => true | _, _, _ => false end)
    [1; 2; 3; 4; 5; 6; 7; 8; 9] = true.
Proof. eexists. split; [vm_compute; reflexivity|]. vm_compute. reflexivity. Qed.

(** C89 (outside the rules): the number alone tells a TPC that it has a module already.  With another number assigned
    to it, the module is accepted a second time and deleted twice. *)
Theorem C89_renumbered_refuted : exists m m1,
  runs start [CNewLayout Fixed 1; CNewModule 1 1 0; CNewLayout Fixed 1; CNewModule 2 3 0; CNewTpc 0; CAddModule 5 (Some 2);
              CAssignModule 2 4] = MOk m ODone /\
  step m (CAddModule 5 (Some 2)) = MOk m1 ODone /\ step m1 (CDelTpc 5) = MUB.
Proof. do 2 eexists. split; [reflexivity|]. split; vm_compute; reflexivity. Qed.
Print Assumptions C89_renumbered_refuted.
