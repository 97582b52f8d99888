(** Linked nodes: each call, on the forest. *)
From Coq Require Import ZArith List String Bool Lia Permutation.
From Verif Require Import DomModel DomSpec DomProofs DomProofs2 DomProofs3.
Import ListNotations.
Open Scope Z_scope.

(** ** links and cells *)
Lemma hd_nth l : hd_of l None = option_map addr (nth_error l 0). Proof. now destruct l. Qed.
Lemma last_addr_eq l : last_addr l = last_of None l.
Proof.
  destruct (last_case l) as [->|(l0 & t & ->)]; [reflexivity|]. unfold last_addr. rewrite rev_unit, last_of_app. reflexivity.
Qed.
Lemma node_root F t : In t F -> node_of F t.
Proof. intros I. apply in_flat_map. exists t. split; [exact I|]. destruct t; now left. Qed.
Lemma node_sub F S R : node_of F S -> In R (subs S) -> node_of F R.
Proof. intros I J. apply in_flat_map in I. destruct I as (t & I1 & I2). apply in_flat_map. exists t. split; [exact I1|]. eapply sub_trans; eassumption. Qed.
Lemma node_child F a d ch x : node_of F (Node a d ch) -> In x ch -> node_of F x.
Proof. intros I J. eapply node_sub; [exact I|]. right. apply in_flat_map. exists x. split; [exact J|]. destruct x; now left. Qed.
Lemma links_repr h F : links h F -> repr (cells h) (cf F).
Proof.
  intros (N & A & R & C). assert (B : forall a c, In (a, c) (cf F) -> cells h a = Some c).
  { intros a c I. apply cf_char in I. destruct I as [(t & I & -> & ->)|(p & d & ch & i & x & I & E & -> & ->)].
    - destruct (R t I) as (c & E1 & E2 & E3 & E4). destruct t as [a d ch]. destruct (C a d ch (node_root _ _ I)) as [(c' & E5 & E6 & E7 & E8) _].
      cbn [addr] in *. rewrite E1 in E5. injection E5 as <-. rewrite E1. f_equal. unfold cell_of. cbn [kids dat]. rewrite hd_nth, <- last_addr_eq. destruct c; cbn in *; congruence.
    - destruct (C p d ch I) as [_ H]. destruct (H i x E) as (c & E1 & E2 & E3 & E4). destruct x as [a d' ch'].
      destruct (C a d' ch' (node_child _ _ _ _ _ I (nth_error_In _ _ E))) as [(c' & E5 & E6 & E7 & E8) _].
      cbn [addr] in *. rewrite E1 in E5. injection E5 as <-. rewrite E1. f_equal. unfold cell_of. cbn [kids dat]. rewrite hd_nth, <- last_addr_eq.
      unfold prev_at. destruct c; cbn in *; congruence. }
  split; [now rewrite keys_cf|]. intros a c. split; [|apply B]. intros E.
  assert (I : In a (keys (cf F))) by (rewrite keys_cf; apply A; congruence). unfold keys in I. apply in_map_iff in I. destruct I as ([a' c'] & E' & I).
  cbn in E'. subst a'. rewrite (B a c' I) in E. injection E as <-. exact I.
Qed.
Lemma repr_links h F : repr (cells h) (cf F) -> links h F.
Proof.
  intros [N R]. rewrite keys_cf in N. split; [exact N|]. split; [|split].
  - intros a. rewrite <- keys_cf. unfold keys. rewrite in_map_iff. split.
    + intros E. destruct (cells h a) as [c|] eqn:E1; [|congruence]. apply R in E1. exists (a, c). auto.
    + intros ([a' c] & E & I). cbn in E. subst a'. apply R in I. congruence.
  - intros t I. exists (cell_of None None None t). split; [|auto]. apply R. apply cf_char. left. eauto.
  - intros a d ch I. split.
    + assert (J : In a (keys (cf F))) by (rewrite keys_cf; apply node_addr; exists (Node a d ch); auto).
      unfold keys in J. apply in_map_iff in J. destruct J as ([a' c] & E & J). cbn in E. subst a'. exists c. split; [now apply R|].
      apply cf_char in J. destruct J as [(t & J & E & ->)|(p & d' & ch' & i & x & J & E1 & E & ->)].
      * assert (ET : t = Node a d ch) by (eapply node_unique; eauto using node_root). subst t. cbn. rewrite hd_nth, last_addr_eq. auto.
      * assert (ET : x = Node a d ch) by (eapply node_unique; eauto using node_child, nth_error_In). subst x. cbn. rewrite hd_nth, last_addr_eq. auto.
    + intros i x E. exists (cell_of (Some a) (prev_at None ch i) (option_map addr (nth_error ch (S i))) x). split; [|auto].
      apply R. apply cf_char. right. exists a, d, ch, i, x. auto.
Qed.
Definition live (h : heap) (F : forest) : Prop := hrep h (cf F).
Lemma live_links h F : live h F -> links h F. Proof. intros [R _]. now apply repr_links. Qed.
Lemma links_live h F F0 : live h F0 -> links h F -> live h F.
Proof.
  intros [[N R] U] L. pose proof (links_repr h F L) as R'. split; [exact R'|]. intros a I. unfold keys in I. apply in_map_iff in I. destruct I as ([a' c] & E & I).
  cbn in E. subst a'. apply R' in I. apply R in I. apply U. eapply in_keys; exact I.
Qed.

(** ** children *)
Lemma parent_child F a c p : In (a, c) (cf F) -> c_parent c = Some p -> child_of F p a.
Proof.
  intros I E. apply cf_char in I. destruct I as [(t & _ & _ & ->)|(p' & d & ch & i & x & I & E1 & -> & ->)]; [discriminate|].
  cbn in E. injection E as ->. exists d, ch. split; [exact I|]. apply in_map. eapply nth_error_In; exact E1.
Qed.
Lemma child_split F p b : child_of F p b -> exists d l x rr, node_of F (Node p d (l ++ x :: rr)) /\ addr x = b.
Proof. intros (d & ch & I & J). apply in_map_iff in J. destruct J as (x & E & J). apply in_split in J. destruct J as (l & rr & ->). eauto 6. Qed.
Lemma cell_at F a : In a (all F) -> exists c, In (a, c) (cf F).
Proof. rewrite <- keys_cf. unfold keys. intros I. apply in_map_iff in I. destruct I as ([a' c] & E & I). cbn in E. subst. eauto. Qed.
Lemma child_dec F p b : NoDup (all F) -> In b (all F) -> child_of F p b \/ (~ child_of F p b /\ forall c, In (b, c) (cf F) -> is_ptr (c_parent c) p = false).
Proof.
  intros N I. destruct (cell_at F b I) as (c & J). destruct (is_ptr (c_parent c) p) eqn:E.
  - left. eapply parent_child; [exact J|]. unfold is_ptr in E. destruct (c_parent c) as [x|]; [|discriminate]. apply Z.eqb_eq in E. now subst.
  - right. assert (U : forall c', In (b, c') (cf F) -> c' = c).
    { intros c' J'. rewrite <- keys_cf in N. clear -N J J'. induction (cf F) as [|[x y] L IH]; [contradiction|]. cbn in N. apply NoDup_cons_iff in N. destruct N as [N1 N2].
      destruct J as [J|J], J' as [J'|J']; [congruence| | |auto].
      - injection J as -> ->. exfalso. apply N1. eapply in_keys; exact J'.
      - injection J' as -> ->. exfalso. apply N1. eapply in_keys; exact J. }
    split.
    + intros (d & ch & K1 & K2). apply in_map_iff in K2. destruct K2 as (x & <- & K2). destruct (In_nth_error ch x K2) as [i Ei].
      assert (J' : In (addr x, cell_of (Some p) (prev_at None ch i) (option_map addr (nth_error ch (S i))) x) (cf F)).
      { apply cf_char. right. exists p, d, ch, i, x. auto. }
      rewrite <- (U _ J') in E. cbn in E. now rewrite Z.eqb_refl in E.
    + intros c' J'. now rewrite (U c' J').
Qed.
Lemma size_le F S : node_of F S -> (tsize S <= List.length (all F))%nat.
Proof.
  intros I. rewrite tsize_addrs. apply in_flat_map in I. destruct I as (t & I1 & I2). apply in_split in I1. destruct I1 as (l1 & l2 & ->).
  rewrite all_mid, !app_length. assert (G : (List.length (addrs S) <= List.length (addrs t))%nat); [|lia]. clear -I2. revert S I2.
  induction t as [a d ch IH] using tree_ind'. intros S [<-|I]; [reflexivity|]. apply in_flat_map in I. destruct I as (t & I1 & I2). rewrite Forall_forall in IH.
  specialize (IH t I1 S I2). apply in_split in I1. destruct I1 as (l1 & l2 & ->). cbn [addrs List.length]. rewrite flat_map_app, app_length. cbn [flat_map]. rewrite app_length. lia.
Qed.
Lemma kids_size a d ch : (list_sum (map tsize ch) < tsize (Node a d ch))%nat. Proof. cbn. lia. Qed.
Lemma node_incl F S : NoDup (all F) -> node_of F S -> exists par prv nxt, incl (ct par prv nxt S) (cf F).
Proof.
  intros N I. destruct (focus F S N I) as (par & prv & nxt & L0 & P & _). exists par, prv, nxt. intros x Hx. eapply Permutation_in; [symmetry; exact P|]. apply in_or_app. now left.
Qed.
Lemma live_nodup h F : live h F -> NoDup (all F). Proof. intros [[N _] _]. now rewrite keys_cf in N. Qed.
Lemma fresh_new F L T : Permutation (cf F) L -> fresh_in L T -> new_to F T.
Proof.
  intros P [N A]. split; [exact N|]. intros x I J. apply (A x I). eapply Permutation_in; [apply keys_perm; exact P|]. now rewrite keys_cf.
Qed.

(** ** two nodes of a forest: one within the other or apart *)
Lemma laminar_t : forall T S R x, NoDup (addrs T) -> In S (subs T) -> In R (subs T) -> In x (addrs S) -> In x (addrs R) -> In S (subs R) \/ In R (subs S).
Proof.
  induction T as [a d ch IH] using tree_ind'. intros S R x N I J K1 K2. cbn [addrs] in N. apply NoDup_cons_iff in N. destruct N as [N1 N].
  destruct I as [<-|I]; [now right|]. destruct J as [<-|J]; [left; now right|]. apply in_flat_map in I, J. destruct I as (t & I1 & I2), J as (t' & J1 & J2).
  rewrite Forall_forall in IH. destruct (in_split t ch I1) as (l1 & l2 & ->). change (flat_map addrs (l1 ++ t :: l2)) with (all (l1 ++ t :: l2)) in *.
  assert (X : In x (addrs t)) by (eapply sub_addrs; eassumption). assert (X' : In x (addrs t')) by (eapply sub_addrs; eassumption).
  destruct (nodup_mid l1 t l2 x N X) as [M1 M2]. apply in_app_or in J1. destruct J1 as [J1|[<-|J1]].
  - exfalso. apply M1. apply in_all. eauto.
  - eapply (IH t I1); eauto. eapply nodup_part; exact N.
  - exfalso. apply M2. apply in_all. eauto.
Qed.
Lemma laminar F S R x : NoDup (all F) -> node_of F S -> node_of F R -> In x (addrs S) -> In x (addrs R) -> In S (subs R) \/ In R (subs S).
Proof.
  intros N I J K1 K2. apply in_flat_map in I, J. destruct I as (t & I1 & I2), J as (t' & J1 & J2).
  destruct (in_split t F I1) as (l1 & l2 & ->).
  assert (X : In x (addrs t)) by (eapply sub_addrs; eassumption). assert (X' : In x (addrs t')) by (eapply sub_addrs; eassumption).
  destruct (nodup_mid l1 t l2 x N X) as [M1 M2]. apply in_app_or in J1. destruct J1 as [J1|[<-|J1]].
  - exfalso. apply M1. apply in_all. eauto.
  - eapply laminar_t; eauto. eapply nodup_part; exact N.
  - exfalso. apply M2. apply in_all. eauto.
Qed.

(** ** the calls *)
Lemma cf_mid l t r : Permutation (cf (l ++ t :: r)) (ct None None None t ++ cf (l ++ r)).
Proof. unfold cf. rewrite !flat_map_app. cbn [flat_map]. perm. Qed.
Lemma step_ok k h F c : live h F -> allowed F c -> (List.length (all F) <= k)%nat ->
  exists h' r F', step k h c = DOk (h', r) /\ did F c r F' /\ live h' F'.
Proof.
  intros H A K. pose proof (live_nodup h F H) as N.
  assert (SRC : forall q, In q (all F) -> exists tq pa pr nx, node_of F tq /\ addr tq = q /\ incl (ct pa pr nx tq) (cf F) /\ (tsize tq <= k)%nat).
  { intros q I. apply node_addr in I. destruct I as (tq & I & E). destruct (node_incl F tq N I) as (pa & pr & nx & J). exists tq, pa, pr, nx.
    pose proof (size_le F tq I). repeat split; auto; lia. }
  assert (MOVE : forall X Y : list (Z * cell), Permutation (cf F) X -> incl Y (cf F) -> incl Y X) by (intros X Y P J y Hy; eapply Permutation_in; [exact P|now apply J]).
  destruct c as [d|p n|p q|p b q|p b q|p b q|p b|a|a|a|a b]; cbn [step allowed did] in *.
  - pose proof (hrep_new h _ d H) as H1. destruct (new_node h d) as [h1 a] eqn:E. cbn [fst] in H1.
    assert (EA : a = unused h) by (unfold new_node in E; congruence). subst a.
    exists h1, (Some (unused h)), (F ++ [Node (unused h) d []]). split; [reflexivity|]. split.
    + exists (unused h). split; [reflexivity|]. split; [|reflexivity]. intros I. rewrite <- keys_cf in I. destruct H as [_ U]. apply U in I. lia.
    + eapply hrep_perm; [|exact H1]. unfold live, cf. rewrite flat_map_app. cbn [flat_map]. rewrite ct_eq. unfold cell_of. cbn [cl kids dat hd_of last_of]. perm.
  - destruct A as (l & t & rr & -> & <- & I). apply node_addr in I. destruct I as ([p' d ch] & I & E). cbn in E. subst p'.
    assert (N' : NoDup (all (l ++ rr))) by (eapply nodup_r with (x := addrs t); eapply Permutation_NoDup; [|exact N]; rewrite all_mid, all_app; perm).
    destruct (focus (l ++ rr) (Node p d ch) N' I) as (par & prv & nxt & L0 & P1 & P2). cbn [addr] in P2.
    destruct (link_ok par prv nxt p d ch (addr t) (dat t) (kids t) (cell_of None None None t) h L0 eq_refl eq_refl eq_refl) as (h' & E & H' & _).
    { eapply hrep_perm; [|exact H]. rewrite cf_mid, P1, (ct_eq' None None None t). perm. }
    rewrite E. cbn [dbind]. eexists _, _, (place p (Node p d (ch ++ [t])) (l ++ rr)). split; [reflexivity|]. split; [exists l, t, rr, d, ch; auto|].
    unfold live. eapply hrep_perm; [symmetry; apply P2; reflexivity|]. destruct t; exact H'.
  - destruct A as [I J]. destruct (SRC q J) as (tq & pa & pr & nx & J1 & J2 & J3 & J4). subst q.
    apply node_addr in I. destruct I as ([p' d ch] & I & E). cbn in E. subst p'. destruct (focus F (Node p d ch) N I) as (par & prv & nxt & L0 & P1 & P2). cbn [addr] in P2.
    destruct (insert_end_ok k par prv nxt p d ch tq pa pr nx h L0 (hrep_perm _ _ _ P1 H) (MOVE _ _ P1 J3) J4) as (h' & t & E & S1 & Fr & H').
    rewrite E. eexists _, _, (place p (Node p d (ch ++ [t])) F). split; [reflexivity|]. split.
    + exists tq, t, d, ch. repeat split; auto; try apply (fresh_new F _ [t] P1 Fr).
    + unfold live. eapply hrep_perm; [symmetry; apply P2; reflexivity|exact H'].
  - destruct A as (I & J & B). destruct b as [b|]; [|exists h, None, F; split; [reflexivity|]; split; [right; auto|exact H]].
    destruct (child_dec F p b N B) as [C|[C1 C2]].
    + destruct (child_split F p b C) as (d & l & x & rr & I' & <-). destruct (SRC q J) as (tq & pa & pr & nx & J1 & J2 & J3 & J4). subst q.
      destruct (focus F _ N I') as (par & prv & nxt & L0 & P1 & P2). cbn [addr] in P2.
      destruct (insert_before_ok k par prv nxt p d l x rr tq pa pr nx h L0 (hrep_perm _ _ _ P1 H) (MOVE _ _ P1 J3) J4) as (h' & t & E & S1 & Fr & H').
      rewrite E. eexists _, _, (place p (Node p d (l ++ t :: x :: rr)) F). split; [reflexivity|]. split.
      * left. exists tq, t, d, l, x, rr. repeat split; auto; try apply (fresh_new F _ [t] P1 Fr).
      * unfold live. eapply hrep_perm; [symmetry; apply P2; reflexivity|exact H'].
    + exists h, None, F. destruct (cell_at F b B) as (c & Jc). cbn [InsertBeforeChild]. rewrite (hrep_get _ _ _ _ H Jc). cbn [dbind]. rewrite (C2 c Jc). cbn [negb].
      split; [reflexivity|]. split; [right; auto|exact H].
  - destruct A as (I & J & B). destruct b as [b|]; [|exists h, None, F; split; [reflexivity|]; split; [right; auto|exact H]].
    destruct (child_dec F p b N B) as [C|[C1 C2]].
    + destruct (child_split F p b C) as (d & l & x & rr & I' & <-). destruct (SRC q J) as (tq & pa & pr & nx & J1 & J2 & J3 & J4). subst q.
      destruct (focus F _ N I') as (par & prv & nxt & L0 & P1 & P2). cbn [addr] in P2.
      destruct (insert_after_ok k par prv nxt p d l x rr tq pa pr nx h L0 (hrep_perm _ _ _ P1 H) (MOVE _ _ P1 J3) J4) as (h' & t & E & S1 & Fr & H').
      rewrite E. eexists _, _, (place p (Node p d (l ++ x :: t :: rr)) F). split; [reflexivity|]. split.
      * left. exists tq, t, d, l, x, rr. repeat split; auto; try apply (fresh_new F _ [t] P1 Fr).
      * unfold live. eapply hrep_perm; [symmetry; apply P2; reflexivity|exact H'].
    + exists h, None, F. destruct (cell_at F b B) as (c & Jc). cbn [InsertAfterChild]. rewrite (hrep_get _ _ _ _ H Jc). cbn [dbind]. rewrite (C2 c Jc). cbn [negb].
      split; [reflexivity|]. split; [right; auto|exact H].
  - destruct A as (I & J & B). destruct (child_dec F p b N B) as [C|[C1 C2]].
    + destruct (child_split F p b C) as (d & l & x & rr & I' & <-). destruct (SRC q J) as (tq & pa & pr & nx & J1 & J2 & J3 & J4). subst q.
      destruct (focus F _ N I') as (par & prv & nxt & L0 & P1 & P2). cbn [addr] in P2.
      assert (KX : (tsize x <= k)%nat) by (pose proof (size_le F x (node_child F p d _ x I' ltac:(apply in_or_app; right; now left))); lia).
      destruct (replace_ok k par prv nxt p d l x rr tq pa pr nx h L0 (hrep_perm _ _ _ P1 H) (MOVE _ _ P1 J3) J4 KX) as (h' & t & E & S1 & Fr & H').
      rewrite E. eexists _, _, (place p (Node p d (l ++ t :: rr)) F). split; [reflexivity|]. split.
      * left. exists tq, t, d, l, x, rr. repeat split; auto; try apply (fresh_new F _ [t] P1 Fr).
      * unfold live. eapply hrep_perm; [symmetry; apply P2; reflexivity|exact H'].
    + exists h, None, F. destruct (cell_at F b B) as (c & Jc). unfold ReplaceChild. rewrite (hrep_get _ _ _ _ H Jc). cbn [dbind]. rewrite (C2 c Jc). cbn [negb].
      split; [reflexivity|]. split; [right; auto|exact H].
  - destruct (child_split F p b A) as (d & l & x & rr & I' & <-). destruct (focus F _ N I') as (par & prv & nxt & L0 & P1 & P2). cbn [addr] in P2.
    assert (KX : (tsize x <= k)%nat) by (pose proof (size_le F x (node_child F p d _ x I' ltac:(apply in_or_app; right; now left))); lia).
    destruct (remove_ok k par prv nxt p d l x rr h L0 (hrep_perm _ _ _ P1 H) KX) as (h' & E & H'). rewrite E. cbn [dbind].
    eexists _, _, (place p (Node p d (l ++ rr)) F). split; [reflexivity|]. split; [exists d, l, x, rr; auto|].
    unfold live. eapply hrep_perm; [symmetry; apply P2; reflexivity|exact H'].
  - apply node_addr in A. destruct A as ([a' d ch] & I & E). cbn in E. subst a'. destruct (focus F _ N I) as (par & prv & nxt & L0 & P1 & P2). cbn [addr] in P2.
    assert (KX : (list_sum (map tsize ch) <= k)%nat) by (pose proof (size_le F _ I); pose proof (kids_size a d ch); lia).
    destruct (clear_ok k par prv nxt a d ch h L0 (hrep_perm _ _ _ P1 H) KX) as (h' & E & H' & _). rewrite E. cbn [dbind].
    eexists _, _, (place a (Node a d []) F). split; [reflexivity|]. split; [exists d, ch; auto|].
    unfold live. eapply hrep_perm; [symmetry; apply P2; reflexivity|exact H'].
  - apply in_map_iff in A. destruct A as (t & <- & I). pose proof (size_le F t (node_root F t I)) as KT. apply in_split in I. destruct I as (l & rr & ->).
    destruct (destroy_ok t k None None None h (cf (l ++ rr))) as (h' & E & H' & _); [lia|eapply hrep_perm; [apply cf_mid|exact H]|].
    rewrite E. cbn [dbind]. exists h', None, (l ++ rr). split; [reflexivity|]. split; [exists l, t, rr; auto|exact H'].
  - destruct (SRC a A) as (ta & pa & pr & nx & J1 & J2 & J3 & J4). subst a. destruct (clone_ok ta k pa pr nx h _ J4 H J3) as (h1 & t & E & H1 & S1 & _).
    rewrite E. cbn [dbind fst snd]. exists h1, (Some (addr t)), (F ++ [t]). split; [reflexivity|]. split.
    + pose proof (fresh_new F _ _ (Permutation_refl _) (fresh_ct _ _ _ _ _ _ H1)) as Fr. exists ta, t. auto 8.
    + unfold live. eapply hrep_perm; [|exact H1]. unfold cf. rewrite flat_map_app. cbn [flat_map]. perm.
  - destruct A as (ta & tb & I1 & <- & I2 & <- & E1 & E2 & O1 & O2). destruct ta as [a d ch]. cbn [addr dat] in *.
    destruct (focus F _ N I1) as (par & prv & nxt & L0 & P1 & P2). cbn [addr] in P2. destruct (node_incl F tb N I2) as (pb & prb & nxb & J).
    assert (J' : incl (ct pb prb nxb tb) L0).
    { intros [y c] Hy. pose proof (J _ Hy) as Hy'. apply (Permutation_in _ P1) in Hy'. apply in_app_or in Hy'. destruct Hy' as [Hy'|Hy']; [exfalso|exact Hy'].
      apply in_keys in Hy, Hy'. rewrite keys_ct in Hy, Hy'. destruct (laminar F _ _ y N I1 I2 Hy' Hy) as [X|X]; apply sub_addr in X; contradiction. }
    pose proof (size_le F _ I1) as K1. pose proof (size_le F _ I2) as K2. pose proof (kids_size a d ch). destruct tb as [b db cb]. pose proof (kids_size b db cb).
    destruct (assign_ok k par prv nxt a d ch _ _ _ _ h L0 (hrep_perm _ _ _ P1 H) J' ltac:(lia) ltac:(cbn [kids]; lia)) as (h' & ch' & E & S' & U' & H').
    cbn [addr dat kids] in *. rewrite E. cbn [dbind]. eexists _, _, (place a (Node a db ch') F). split; [reflexivity|]. split.
    + exists (Node b db cb), ch'. split; [exact I2|]. split; [reflexivity|]. split; [exact S'|]. split; [|split; reflexivity]. split.
      * destruct H' as [[N' _] _]. unfold keys in N'. rewrite map_app in N'. apply nodup_l in N'. fold (keys (ct par prv nxt (Node a db ch'))) in N'. rewrite keys_ct in N'.
        cbn [addrs] in N'. apply NoDup_cons_iff in N'. apply N'.
      * intros x X Y. apply U' in X. destruct H as [_ U]. rewrite <- keys_cf in Y. apply U in Y. lia.
    + unfold live. eapply hrep_perm; [symmetry; apply P2; reflexivity|exact H'].
Qed.

Lemma reach_live : forall h, reach h -> exists F, live h F.
Proof.
  induction 1 as [|h F k c h' r R (F0 & IH) L A E].
  - exists []. split; [split; [constructor|]|]; cbn; [|contradiction]. intros a c. split; [discriminate|contradiction].
  - pose proof (links_live h F F0 IH L) as H. destruct (step_ok (Nat.max k (List.length (all F))) h F c H A ltac:(lia)) as (h2 & r2 & F2 & E2 & D2 & H2).
    destruct (step_le k (Nat.max k (List.length (all F))) h c ltac:(lia)) as [X|X]; [congruence|]. rewrite E, E2 in X. injection X as -> ->. eauto.
Qed.
