(** Attributes as rings: each call. *)
From Coq Require Import ZArith List String Bool Lia Permutation.
From Verif Require Import DomModel DomProofs DomProofs2 DomProofs3 AttrModel AttrSpec AttrProofs.
Import ListNotations.
Open Scope Z_scope.

(** ** one attribute of a ring *)
Definition around (s : Z) (l1 : list attr) (b : Z) (l2 : list attr) : list (Z * acell) :=
  (s, mkA (Some (lastz b l2)) (Some (hdz l1 b)) "" "") :: chain s l1 b ++ chain b l2 s.
Lemma ring_mid s l1 x l2 : Permutation (ring (s, l1 ++ x :: l2))
  ((t_addr x, mkA (Some (lastz s l1)) (Some (hdz l2 s)) (t_name x) (t_value x)) :: around s l1 (t_addr x) l2).
Proof.
  unfold ring, head_cell, around. cbn [fst snd]. rewrite chain_app, lastz_app, hdz_app. cbn [chain lastz hdz]. perm.
Qed.
Lemma rename_ok h s l1 a n v n' v' f l2 L : ahrep h (ring (s, l1 ++ mkAttr a n v :: l2) ++ L) ->
  (forall c, a_name c = n -> a_value c = v -> f c = mkA (a_prev c) (a_next c) n' v') ->
  exists h', awrite h (Some a) f = DOk h' /\ ahrep h' (ring (s, l1 ++ mkAttr a n' v' :: l2) ++ L) /\ aunused h' = aunused h.
Proof.
  intros H F. apply (ah_perm _ _ _ (Permutation_app_tail L (ring_mid s l1 _ l2))) in H. cbn [t_addr t_name t_value app] in H.
  destruct (aw0 _ _ _ _ f H) as (h' & E & H' & U). exists h'. split; [exact E|]. split; [|exact U]. rewrite F in H' by reflexivity. cbn [a_prev a_next] in H'.
  eapply ah_perm; [|exact H']. rewrite (ring_mid s l1 (mkAttr a n' v') l2). cbn [t_addr t_name t_value app]. reflexivity.
Qed.

(** ** SetAttribute *)
Definition newer (h : aheap) (l l' : list attr) : Prop := forall x, In x (map t_addr l') -> In x (map t_addr l) \/ aunused h <= x.
Lemma set_ok h s l L k n v : ahrep h (ring (s, l) ++ L) -> (List.length l <= k)%nat ->
  exists h' l', SetAttribute k h s n v = DOk h' /\ sets n v l l' /\ ahrep h' (ring (s, l') ++ L) /\ aunused h <= aunused h' /\ (List.length l' <= S (List.length l))%nat.
Proof.
  intros H K. unfold SetAttribute. rewrite (find_ok h s l L k n H K). destruct (find (named n) l) as [[a m w]|] eqn:F; cbn [option_map dbind t_addr].
  - destruct (find_some n l _ F) as (l1 & l2 & -> & EN & NO). cbn in EN. subst m.
    destruct (rename_ok h s l1 a n w n v (aset_value v) l2 L H) as (h' & E & H' & U).
    { intros c E1 E2. unfold aset_value. now rewrite E1. }
    exists h', (l1 ++ mkAttr a n v :: l2). split; [exact E|]. split; [now constructor|]. split; [exact H'|]. split; [lia|]. rewrite !app_length. cbn. lia.
  - pose proof (ah_new h _ (mkA None None n v) H) as H1. destruct (alloc h (mkA None None n v)) as [h1 a] eqn:EA. cbn [fst] in H1.
    assert (a = aunused h /\ aunused h1 = aunused h + 1) as [-> U1] by (unfold alloc in EA; injection EA as <- <-; auto).
    destruct (add_ok h1 s l L k _ n v None None H1 K F) as (h' & E & H' & U). exists h', (l ++ [mkAttr (aunused h) n v]).
    split; [exact E|]. split; [apply sets_new; now apply find_none|]. split; [exact H'|]. split; [lia|]. rewrite app_length. cbn. lia.
Qed.

(** ** Remove *)
Lemma remove_loop_eq h s l1 x l2 L : ahrep h (ring (s, l1 ++ x :: l2) ++ L) -> forall lb la k, l1 = la ++ lb -> (List.length (lb ++ x :: l2) <= k)%nat ->
  remove_loop k h s (t_addr x) (Some (hdz (lb ++ x :: l2) s)) =
  (c <-- aget h (Some (t_addr x)) ;; h <-- awrite h (a_prev c) (aset_next (a_next c)) ;; c <-- aget h (Some (t_addr x)) ;;
     h <-- awrite h (a_next c) (aset_prev (a_prev c)) ;; h <-- awrite h (Some (t_addr x)) (aset_next None) ;; awrite h (Some (t_addr x)) (aset_prev None)).
Proof.
  intros H. pose proof (head_out _ _ _ _ H) as O. induction lb as [|y lb IH]; intros la k E K; (destruct k as [|k]; [cbn in K; lia|]).
  - cbn [app hdz remove_loop is_ptr]. destruct (Z.eqb_spec (t_addr x) s) as [X|_]; [exfalso; apply (O x); [apply in_or_app; right; now left|exact X]|].
    rewrite Z.eqb_refl. reflexivity.
  - cbn [app hdz remove_loop is_ptr]. destruct (Z.eqb_spec (t_addr y) s) as [X|_]; [exfalso; apply (O y); [rewrite E; apply in_or_app; left; apply in_or_app; right; now left|exact X]|].
    assert (D : t_addr y <> t_addr x).
    { intros X. destruct H as [[N _] _]. unfold akeys in N. rewrite map_app in N. apply nodup_l in N. fold (akeys (ring (s, l1 ++ x :: l2))) in N. rewrite keys_ring in N.
      unfold addrs_of in N. cbn [fst snd] in N. apply NoDup_cons_iff in N. destruct N as [_ N]. rewrite map_app in N. cbn [map] in N. apply NoDup_remove_2 in N. apply N. apply in_or_app. left.
      rewrite <- X. apply in_map. rewrite E. apply in_or_app. right. now left. }
    destruct (Z.eqb_spec (t_addr y) (t_addr x)) as [X|_]; [contradiction|].
    assert (G : aget h (Some (t_addr y)) = DOk (mkA (Some (lastz s la)) (Some (hdz (lb ++ x :: l2) s)) (t_name y) (t_value y))).
    { eapply ah_get; [exact H|]. apply in_or_app. left. rewrite E. rewrite <- app_assoc. cbn [app]. eapply Permutation_in; [symmetry; apply ring_mid|]. now left. }
    rewrite G. cbn [dbind a_next]. apply (IH (la ++ [y])); [rewrite <- app_assoc; exact E|cbn in K; lia].
Qed.
Lemma remove_ok h s l1 x l2 L k : ahrep h (ring (s, l1 ++ x :: l2) ++ L) -> (List.length (l1 ++ x :: l2) <= k)%nat ->
  exists h', Remove k h s (t_addr x) = DOk h' /\ ahrep h' ((t_addr x, mkA None None (t_name x) (t_value x)) :: ring (s, l1 ++ l2) ++ L) /\ aunused h' = aunused h.
Proof.
  intros H K. unfold Remove. rewrite (ah_get h _ s (head_cell s (l1 ++ x :: l2)) H (or_introl eq_refl)). cbn [dbind head_cell a_next].
  rewrite (remove_loop_eq h s l1 x l2 L H l1 [] k eq_refl K). now apply unlink_ok.
Qed.
Lemma remove_attr_ok h s l L k n : ahrep h (ring (s, l) ++ L) -> (List.length l <= k)%nat ->
  exists h' l', RemoveAttribute k h s n = DOk h' /\ ahrep h' (ring (s, l') ++ L) /\
    ((exists l1 x l2, l = l1 ++ x :: l2 /\ Forall (fun y => t_name y <> n) l1 /\ t_name x = n /\ l' = l1 ++ l2) \/ (Forall (fun y => t_name y <> n) l /\ l' = l)).
Proof.
  intros H K. unfold RemoveAttribute. rewrite (find_ok h s l L k n H K). destruct (find (named n) l) as [x|] eqn:F; cbn [option_map dbind].
  - destruct (find_some n l _ F) as (l1 & l2 & -> & EN & NO). destruct (remove_ok h s l1 x l2 L k H K) as (h1 & E1 & H1 & _). rewrite E1. cbn [dbind].
    destruct (ah_del _ _ _ _ H1) as (h2 & E2 & H2 & _). exists h2, (l1 ++ l2). split; [exact E2|]. split; [exact H2|]. left. exists l1, x, l2. auto.
  - exists h, l. split; [reflexivity|]. split; [exact H|]. right. split; [now apply find_none|reflexivity].
Qed.
Lemma clear_loop_eq k h s : clear_loop k h s =
  (f <-- First h s ;; match f with None => DOk h | Some a => match k with O => DFuel | S k' => h <-- Remove k h s a ;; h <-- del h a ;; clear_loop k' h s end end).
Proof. destruct k; reflexivity. Qed.
Lemma first_ok h s l L : ahrep h (ring (s, l) ++ L) -> First h s = DOk (option_map t_addr (hd_error l)).
Proof.
  intros H. unfold First. rewrite (ah_get h _ s (head_cell s l) H (or_introl eq_refl)). cbn [dbind head_cell a_next]. destruct l as [|x l]; cbn [hdz is_ptr hd_error option_map].
  - now rewrite Z.eqb_refl.
  - destruct (Z.eqb_spec (t_addr x) s) as [X|_]; [|reflexivity]. exfalso. apply (head_out _ _ _ _ H x (or_introl eq_refl) X).
Qed.
Lemma clear_ok : forall l k h s L, ahrep h (ring (s, l) ++ L) -> (List.length l <= k)%nat ->
  exists h', clear_loop k h s = DOk h' /\ ahrep h' (ring (s, []) ++ L) /\ aunused h' = aunused h.
Proof.
  induction l as [|x l IH]; intros k h s L H K; rewrite clear_loop_eq, (first_ok h s _ L H); cbn [hd_error option_map dbind].
  - exists h. auto.
  - destruct k as [|k]; [cbn in K; lia|]. destruct (remove_ok h s [] x l L (S k) H K) as (h1 & E1 & H1 & U1). rewrite E1. cbn [dbind].
    destruct (ah_del _ _ _ _ H1) as (h2 & E2 & H2 & U2). rewrite E2. cbn [dbind]. destruct (IH k h2 s L H2 ltac:(cbn in K; lia)) as (h3 & E3 & H3 & U3).
    exists h3. split; [exact E3|]. split; [exact H3|]. congruence.
Qed.
Lemma delete_ok l k h s L : ahrep h (ring (s, l) ++ L) -> (List.length l <= k)%nat -> exists h', delete_elem k h s = DOk h' /\ ahrep h' L.
Proof.
  intros H K. unfold delete_elem. destruct (clear_ok l k h s L H K) as (h1 & E1 & H1 & _). rewrite E1. cbn [dbind]. cbn [ring fst snd chain app] in H1.
  pose proof (ah_get h1 _ s (head_cell s []) H1 (or_introl eq_refl)) as G. rewrite G. cbn [dbind head_cell a_next a_prev lastz hdz is_ptr]. rewrite Z.eqb_refl. cbn [andb].
  destruct (ah_del _ _ _ _ H1) as (h2 & E2 & H2 & _). unfold del in E2. rewrite G in E2. cbn [dbind] in E2. injection E2 as <-. eauto.
Qed.

(** ** copies *)
Lemma next_ok h s l1 x r L : ahrep h (ring (s, l1 ++ x :: r) ++ L) -> Next h (t_addr x) = DOk (option_map t_addr (hd_error (until_blank r))).
Proof.
  intros H. unfold Next. assert (HP := H). apply (ah_perm _ _ _ (Permutation_app_tail L (ring_mid s l1 x r))) in HP.
  rewrite (ah_get _ _ _ _ HP (or_introl eq_refl)). cbn [dbind a_next]. destruct r as [|y r]; cbn [hdz].
  - rewrite (ah_get h _ s (head_cell s (l1 ++ [x])) H (or_introl eq_refl)). reflexivity.
  - assert (G : aget h (Some (t_addr y)) = DOk (mkA (Some (lastz s (l1 ++ [x]))) (Some (hdz r s)) (t_name y) (t_value y))).
    { eapply ah_get; [exact H|]. apply in_or_app. left. change (x :: y :: r) with ([x] ++ y :: r). rewrite app_assoc. eapply Permutation_in; [symmetry; apply ring_mid|]. now left. }
    rewrite G. cbn [dbind until_blank]. unfold is_blank, blank. cbn [a_value a_name]. rewrite andb_comm.
    destruct (String.eqb (t_name y) "" && String.eqb (t_value y) ""); reflexivity.
Qed.
Lemma copy_loop_ok s l t L kf : forall m l1 x r k h l', List.length r = m -> l = l1 ++ x :: r -> (List.length (x :: r) <= k)%nat -> (List.length l' + List.length r <= kf)%nat ->
  ahrep h (ring (t, l') ++ ring (s, l) ++ L) ->
  exists h' l'', copy_loop kf k h t (Some (t_addr x)) = DOk h' /\ sets_all (x :: until_blank r) l' l'' /\ ahrep h' (ring (t, l'') ++ ring (s, l) ++ L) /\ aunused h <= aunused h'.
Proof.
  induction m as [|m IH]; intros l1 x r k h l' M E K KF H; (destruct k as [|k]; [cbn in K; lia|]); cbn [copy_loop].
  all: assert (G : aget h (Some (t_addr x)) = DOk (mkA (Some (lastz s l1)) (Some (hdz r s)) (t_name x) (t_value x)))
    by (eapply ah_get; [exact H|]; apply in_or_app; right; apply in_or_app; left; rewrite E; eapply Permutation_in; [symmetry; apply ring_mid|]; now left);
    rewrite G; cbn [dbind a_name a_value];
    destruct (set_ok h t l' _ kf (t_name x) (t_value x) H ltac:(lia)) as (h1 & l2 & E1 & S1 & H1 & U1 & LE1); rewrite E1; cbn [dbind];
    assert (H1' : ahrep h1 (ring (s, l1 ++ x :: r) ++ ring (t, l2) ++ L)) by (rewrite <- E; eapply ah_perm; [|exact H1]; perm);
    rewrite (next_ok h1 s l1 x r _ H1'); cbn [dbind].
  - destruct r; [|discriminate]. cbn [until_blank hd_error option_map]. exists h1, l2. split; [destruct k; reflexivity|]. split; [|split; [exact H1|exact U1]].
    eapply sets_more; [exact S1|constructor].
  - destruct r as [|y r]; [discriminate|]. cbn [until_blank]. destruct (blank y) eqn:B; cbn [hd_error option_map].
    + exists h1, l2. split; [destruct k; reflexivity|]. split; [|split; [exact H1|exact U1]]. eapply sets_more; [exact S1|constructor].
    + destruct (IH (l1 ++ [x]) y r k h1 l2) as (h2 & l3 & E2 & S2 & H2 & U2); [cbn in M; lia|rewrite <- app_assoc; exact E|cbn in K |- *; lia|cbn in KF; lia|exact H1|].
      exists h2, l3. split; [exact E2|]. split; [|split; [exact H2|lia]]. eapply sets_more; [exact S1|exact S2].
Qed.
Lemma copy_ok s l t L k h : (List.length l <= k)%nat -> ahrep h (ring (t, []) ++ ring (s, l) ++ L) ->
  exists h' l', CopyAttributes k k h s t = DOk h' /\ sets_all (reachable l) [] l' /\ ahrep h' (ring (t, l') ++ ring (s, l) ++ L) /\ aunused h <= aunused h'.
Proof.
  intros K H. unfold CopyAttributes. rewrite (first_ok h s l (ring (t, []) ++ L)) by (eapply ah_perm; [|exact H]; perm). cbn [dbind].
  destruct l as [|x r]; cbn [hd_error option_map reachable].
  - exists h, []. split; [destruct k; reflexivity|]. split; [constructor|]. split; [exact H|lia].
  - apply (copy_loop_ok s (x :: r) t L k (List.length r) [] x r k h []); [reflexivity|reflexivity|exact K|cbn in K |- *; lia|exact H].
Qed.

(** ** links and cells *)
Definition live (h : aheap) (E : elems) : Prop := ahrep h (rings E).
Lemma hd_eq l s : hd s (map t_addr l) = hdz l s. Proof. now destruct l. Qed.
Lemma last_eq : forall l s, last (map t_addr l) s = lastz s l.
Proof.
  induction l as [|x l IH]; intros s; [reflexivity|]. cbn [map lastz]. destruct l as [|y l]; [reflexivity|].
  transitivity (last (map t_addr (y :: l)) s); [reflexivity|]. rewrite <- IH. cbn [map]. generalize (t_addr y) as z. induction (map t_addr l) as [|u q IHq]; intros z; [reflexivity|]. cbn [last]. apply (IHq u).
Qed.
Lemma chain_links h s : forall l p, links_from h p l s <-> (forall a c, In (a, c) (chain p l s) -> acells h a = Some c).
Proof.
  induction l as [|x l IH]; intros p; cbn [links_from chain]; [split; [intros _ a c []|auto]|]. rewrite IH. split.
  - intros [E H] a c [I|I]; [injection I as <- <-; destruct l; exact E|now apply H].
  - intros H. split; [|intros a c I; apply H; now right]. specialize (H _ _ (or_introl eq_refl)). destruct l; exact H.
Qed.
Lemma links_repr h E : links h E -> arepr (acells h) (rings E).
Proof.
  intros (N & A & R). assert (B : forall a c, In (a, c) (rings E) -> acells h a = Some c).
  { intros a c I. apply in_flat_map in I. destruct I as ([s l] & I & J). destruct (R s l I) as [R1 R2]. destruct J as [J|J].
    - injection J as <- <-. rewrite R2. unfold head_cell. cbn [fst snd]. now rewrite last_eq, hd_eq.
    - cbn [fst snd] in J. rewrite chain_links in R1. now apply R1. }
  split; [now rewrite keys_rings|]. intros a c. split; [|apply B]. intros EQ.
  assert (I : In a (akeys (rings E))) by (rewrite keys_rings; apply A; congruence). unfold akeys in I. apply in_map_iff in I. destruct I as ([a' c'] & E' & I).
  cbn in E'. subst a'. rewrite (B a c' I) in EQ. injection EQ as <-. exact I.
Qed.
Lemma repr_links h E : arepr (acells h) (rings E) -> links h E.
Proof.
  intros [N R]. rewrite keys_rings in N. split; [exact N|]. split.
  - intros a. rewrite <- keys_rings. unfold akeys. rewrite in_map_iff. split.
    + intros EQ. destruct (acells h a) as [c|] eqn:E1; [|congruence]. apply R in E1. exists (a, c). auto.
    + intros ([a' c] & EQ & I). cbn in EQ. subst a'. apply R in I. congruence.
  - intros s l I. split.
    + apply chain_links. intros a c J. apply R. apply in_flat_map. exists (s, l). split; [exact I|]. now right.
    + rewrite last_eq, hd_eq. apply R. apply in_flat_map. exists (s, l). split; [exact I|]. now left.
Qed.
Lemma live_links h E : live h E -> links h E. Proof. intros [R _]. now apply repr_links. Qed.
Lemma links_live h E E0 : live h E0 -> links h E -> live h E.
Proof.
  intros [[N R] U] L. pose proof (links_repr h E L) as R'. split; [exact R'|]. intros a I. unfold akeys in I. apply in_map_iff in I. destruct I as ([a' c] & EQ & I).
  cbn in EQ. subst a'. apply R' in I. apply R in I. apply U. eapply in_akeys; exact I.
Qed.
