From Coq Require Import ZArith List String Bool Lia.
From Verif Require Import DomModel DomSpec DomProofs DomProofs2 DomProofs3 DomProofs4 DomProofs5 HandleModel HandleSpec.
Import ListNotations.
Open Scope Z_scope.

Section Kids.
  Variables (h : heap) (F : forest) (p : Z) (d : data) (ch : list tree).
  Hypothesis L : links h F.
  Hypothesis I : node_of F (Node p d ch).
  Notation ptr i := (option_map addr (nth_error ch i)).

  Lemma skip_at i x : nth_error ch i = Some x -> skipn i ch = x :: skipn (S i) ch.
  Proof. revert i. clear. induction ch as [|y l IH]; intros [|i] X; cbn in X; try discriminate; [now injection X as ->|]. cbn [skipn]. rewrite (IH i X). reflexivity. Qed.
  Lemma hd_at P i x : nth_error ch i = Some x -> P x = true -> filter P (skipn i ch) = x :: filter P (skipn (S i) ch).
  Proof. intros X H. rewrite (skip_at i x X). cbn [filter]. now rewrite H. Qed.

  (** a search from child [i] on finds the first that [P] accepts *)
  Definition finds (P : tree -> bool) (i : nat) (r : dres (option Z)) : Prop :=
    exists j, r = DOk (ptr j) /\ (i <= j)%nat /\ filter P (skipn i ch) = filter P (skipn j ch) /\ forall x, nth_error ch j = Some x -> P x = true.
  Lemma finds_value k v i : (List.length ch <= k)%nat -> finds (has_value v) i (by_value k h v (ptr i)).
  Proof.
    intros K. destruct v as [w|]; [|exists i; repeat split; auto]. cbn [by_value]. change (has_value (Some w)) with (with_value w).
    destruct (find_next_at h F p d ch L I w k _ i eq_refl ltac:(lia)) as [E1 E2]. rewrite E1. destruct (hd_error _) as [x|] eqn:E.
    - destruct E2 as (j & J1 & J2 & J3). assert (W : with_value w x = true).
      { assert (Q : In x (filter (with_value w) (skipn i ch))) by (rewrite J3; now left). now apply filter_In in Q. }
      exists j. rewrite J1. repeat split; [exact J2| |intros y Y; congruence]. rewrite J3. symmetry. now apply hd_at.
    - destruct (filter (with_value w) (skipn i ch)) eqn:E3; [|discriminate]. exists (Nat.max i (List.length ch)). assert (X : nth_error ch (Nat.max i (List.length ch)) = None) by (apply nth_error_None; lia).
      rewrite X. repeat split; [lia| |discriminate]. rewrite E3, skipn_all2 by lia. reflexivity.
  Qed.
  Lemma finds_next k v i x : (List.length ch <= k)%nat -> nth_error ch i = Some x -> finds (has_value v) (S i) (NNextSibling k h v (addr x)).
  Proof. intros K X. destruct (kid_get h F p d ch L I i x X) as (c & G & _ & _ & C & _). unfold NNextSibling. rewrite G. cbn [dbind]. rewrite C. now apply finds_value. Qed.
  Lemma finds_first k v : (List.length ch <= k)%nat -> finds (has_value v) 0 (NFirstChild k h v p).
  Proof. intros K. destruct (par_get h F p d ch L I) as (c & G & E & _). unfold NFirstChild. rewrite G. cbn [dbind]. rewrite E. now apply finds_value. Qed.

  Definition both v (x : tree) : bool := has_value v x && element x.
  Lemma filter_both v l : filter element (filter (has_value v) l) = filter (both v) l.
  Proof. induction l as [|x l IH]; [reflexivity|]. cbn [filter]. unfold both at 1. destruct (has_value v x); cbn [andb filter]; [destruct (element x); now rewrite IH|exact IH]. Qed.
  Lemma finds_elem k v : (List.length ch <= k)%nat -> forall m i t, (List.length ch - i = m)%nat -> (m <= t)%nat -> (forall x, nth_error ch i = Some x -> has_value v x = true) ->
    finds (both v) i (elem_loop t k h v (ptr i)).
  Proof.
    intros K m. induction m as [m IH] using lt_wf_ind. intros i t M T H. destruct (nth_error ch i) as [x|] eqn:X.
    - assert (i < List.length ch)%nat by (apply nth_error_Some; congruence). destruct t as [|t]; [lia|]. cbn [elem_loop option_map].
      destruct (kid_get h F p d ch L I i x X) as (c & G & _ & C & _). rewrite G. cbn [dbind]. assert (E : is_elem c = element x) by (unfold is_elem, element; now rewrite C). rewrite E.
      destruct (element x) eqn:EX.
      + exists i. rewrite X. repeat split; auto. intros y Y. injection Y as <-. unfold both. now rewrite (H x eq_refl), EX.
      + destruct (finds_next k v i x K X) as (j & E1 & J & E2 & HJ). rewrite E1. cbn [dbind].
        destruct (IH (List.length ch - j)%nat ltac:(lia) j t eq_refl ltac:(lia) HJ) as (q & Q1 & Q2 & Q3 & Q4). exists q. repeat split; [exact Q1|lia| |exact Q4].
        rewrite (skip_at i x X). cbn [filter]. assert (N : both v x = false) by (unfold both; rewrite EX; apply andb_false_r). rewrite N, <- Q3.
        rewrite <- !filter_both. now rewrite E2.
    - exists i. rewrite X. destruct t; repeat split; auto; discriminate.
  Qed.
  Lemma finds_bind k v i r : (List.length ch <= k)%nat -> finds (has_value v) i r -> finds (both v) i (c <-- r ;; elem_loop k k h v c).
  Proof.
    intros K (j & -> & J & E & H). cbn [dbind]. destruct (finds_elem k v K _ j k eq_refl ltac:(lia) H) as (q & Q1 & Q2 & Q3 & Q4).
    exists q. repeat split; [exact Q1|lia| |exact Q4]. rewrite <- Q3, <- !filter_both. now rewrite E.
  Qed.

  Lemma counts P next : (forall i x, nth_error ch i = Some x -> finds P (S i) (next (addr x))) -> forall m j t i count, (List.length ch - j = m)%nat -> (m <= t)%nat ->
    (forall x, nth_error ch j = Some x -> P x = true) -> count_loop t next i count (ptr j) = DOk (option_map addr (numbered (count - i) (filter P (skipn j ch)))).
  Proof.
    intros N m. induction m as [m IH] using lt_wf_ind. intros j t i count M T H. destruct (nth_error ch j) as [x|] eqn:X.
    - assert (j < List.length ch)%nat by (apply nth_error_Some; congruence). rewrite (hd_at P j x X (H x eq_refl)). destruct t as [|t]; [lia|]. cbn [count_loop option_map]. unfold numbered.
      destruct (Z.ltb_spec i count) as [C|C].
      + destruct (N j x X) as (q & -> & Q1 & Q2 & Q3). cbn [dbind]. rewrite (IH (List.length ch - q)%nat ltac:(lia) q t (i + 1) count eq_refl ltac:(lia) Q3), Q2. unfold numbered.
        destruct (Z.ltb_spec (count - i) 0); [lia|]. destruct (Z.ltb_spec (count - (i + 1)) 0); [lia|]. replace (Z.to_nat (count - i)) with (S (Z.to_nat (count - (i + 1)))) by lia. reflexivity.
      + destruct (Z.ltb_spec (count - i) 0); [reflexivity|]. replace (Z.to_nat (count - i)) with O by lia. reflexivity.
    - assert (List.length ch <= j)%nat by (now apply nth_error_None). rewrite skipn_all2 by lia. unfold numbered. destruct t; cbn; destruct (count - i <? 0); cbn; try reflexivity; now destruct (Z.to_nat (count - i)).
  Qed.

  Lemma found_hd P r : finds P 0 r -> r = DOk (option_map addr (hd_error (filter P ch))).
  Proof.
    intros (j & -> & _ & E & H). cbn [skipn] in E. rewrite E. destruct (nth_error ch j) as [x|] eqn:X; [now rewrite (hd_at P j x X (H x eq_refl))|].
    assert (List.length ch <= j)%nat by (now apply nth_error_None). rewrite skipn_all2 by lia. reflexivity.
  Qed.
  Lemma found_nth P r next k count : (List.length ch <= k)%nat -> finds P 0 r -> (forall i x, nth_error ch i = Some x -> finds P (S i) (next (addr x))) ->
    (c <-- r ;; count_loop k next 0 count c) = DOk (option_map addr (numbered count (filter P ch))).
  Proof.
    intros K (j & -> & _ & E & H) N. cbn [dbind]. cbn [skipn] in E. rewrite (counts P next N _ j k 0 count eq_refl ltac:(lia) H), <- E. now rewrite Z.sub_0_r.
  Qed.
  Lemma handle_ok k c : (List.length ch <= k)%nat -> on_handle k h c (Some p) = DOk (option_map addr (led_to c (Node p d ch))).
  Proof.
    intros K. assert (EF : forall v, finds (both v) 0 (NFirstChildElement k h v p)) by (intros v; apply finds_bind; [exact K|now apply finds_first]).
    assert (EN : forall v i x, nth_error ch i = Some x -> finds (both v) (S i) (NNextSiblingElement k h v (addr x))) by (intros v i x X; apply finds_bind; [exact K|now apply finds_next]).
    destruct c as [v|v|v n|v n]; cbn [on_handle HFirstChild HFirstChildElement HChild HChildElement led_to kids]; rewrite ?filter_both.
    - apply found_hd. now apply finds_first.
    - apply found_hd. apply EF.
    - apply found_nth; [exact K|now apply finds_first|]. intros i x X. now apply finds_next.
    - apply found_nth; [exact K|apply EF|apply EN].
  Qed.
End Kids.

Lemma led_child c t t' : led_to c t = Some t' -> In t' (kids t).
Proof.
  assert (N : forall n l x, numbered n l = Some x -> In x l). { intros n l x. unfold numbered. destruct (n <? 0); [destruct l; [discriminate|injection 1 as <-; now left]|apply nth_error_In]. }
  assert (H : forall (l : list tree) x, hd_error l = Some x -> In x l) by (intros l x E; destruct l; [discriminate|injection E as <-; now left]).
  destruct c; cbn [led_to]; intros E; (apply N in E || apply H in E); repeat (apply filter_In in E; destruct E as [E _]); exact E.
Qed.
Lemma len_kids F p d ch : node_of F (Node p d ch) -> (List.length ch <= List.length (all F))%nat.
Proof.
  assert (A1 : forall t, addrs t <> []) by (intros [a d0 c0]; discriminate).
  assert (B : forall l, (List.length l <= List.length (flat_map addrs l))%nat). { induction l as [|t l IH]; [cbn; lia|]. cbn [flat_map List.length]. rewrite app_length. pose proof (A1 t). destruct (addrs t); [congruence|]. cbn. lia. }
  assert (S : forall t s, In s (subs t) -> (List.length (addrs s) <= List.length (addrs t))%nat).
  { intros t. induction t as [a d0 c0 IH] using tree_ind'. intros s [<-|H]; [lia|]. apply in_flat_map in H. destruct H as (x & X & Y). cbn [addrs List.length].
    assert (Z : (List.length (addrs s) <= List.length (flat_map addrs c0))%nat); [|lia]. clear a d0. induction IH as [|y c0 Hy _ IHc]; [destruct X|]. cbn [flat_map]. rewrite app_length. destruct X as [->|X]; [specialize (Hy s Y); lia|specialize (IHc X); lia]. }
  intros H. apply in_flat_map in H. destruct H as (t & T & H). apply S in H. cbn [addrs List.length] in H. pose proof (B ch). unfold all.
  assert (Z : (List.length (addrs t) <= List.length (flat_map addrs F))%nat); [|lia]. clear -T. induction F as [|y F IH]; [destruct T|]. cbn [flat_map]. rewrite app_length. destruct T as [->|T]; [lia|specialize (IH T); lia].
Qed.
Lemma chain_ok k h F : links h F -> (List.length (all F) <= k)%nat -> forall cs t, node_of F t -> chained k h cs (Some (addr t)) = DOk (option_map addr (path cs t)).
Proof.
  intros L K. assert (NL : forall cs, chained k h cs None = DOk None) by (induction cs as [|c cs IH]; [reflexivity|]; destruct c; exact IH).
  induction cs as [|c cs IH]; intros [p d ch] T; [reflexivity|]. cbn [chained path addr]. rewrite (handle_ok h F p d ch L T k c) by (pose proof (len_kids F p d ch T); lia). cbn [dbind].
  destruct (led_to c (Node p d ch)) as [t'|] eqn:E; cbn [option_map]; [|apply NL]. apply IH. apply led_child in E. eapply node_child; eassumption.
Qed.
Lemma null_ok k h cs : chained k h cs None = DOk None.
Proof. induction cs as [|c cs IH]; [reflexivity|]; destruct c; exact IH. Qed.
Lemma dangling k h F a c : links h F -> ~ In a (all F) -> on_handle k h c (Some a) = DUB.
Proof.
  intros (_ & A & _) N. assert (E : get h a = DUB). { unfold get. destruct (cells h a) eqn:E; [|reflexivity]. exfalso. apply N. apply A. congruence. }
  destruct c; cbn [on_handle HFirstChild HFirstChildElement HChild HChildElement]; unfold NFirstChildElement, NFirstChild; now rewrite E.
Qed.
