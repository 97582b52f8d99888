(** Attributes as rings: turns, steps, and going through them. *)
From Coq Require Import ZArith List String Bool Lia Permutation.
From Verif Require Import DomModel DomProofs DomProofs2 DomProofs3 AttrModel AttrSpec AttrProofs AttrProofs2.
Import ListNotations.
Open Scope Z_scope.

(** ** more turns *)
Ltac le1 := first [apply le_refl | apply le_bind; [|intros]].
Lemma find_loop_le : forall k k' h s n x, (k <= k')%nat -> le_res (find_loop k h s n x) (find_loop k' h s n x).
Proof.
  induction k as [|k IH]; intros k' h s n x K.
  - destruct k' as [|k']; [apply le_refl|]. cbn [find_loop]. destruct (is_ptr x s); [apply le_refl|now left].
  - destruct k' as [|k']; [lia|]. cbn [find_loop]. destruct (is_ptr x s); [apply le_refl|]. apply le_bind; [apply le_refl|intros c]. destruct (String.eqb _ _); [apply le_refl|]. apply IH. lia.
Qed.
Lemma Find_le k k' h s n : (k <= k')%nat -> le_res (Find k h s n) (Find k' h s n).
Proof. intros K. unfold Find. apply le_bind; [apply le_refl|intros c]. now apply find_loop_le. Qed.
Lemma Add_le k k' h s a : (k <= k')%nat -> le_res (Add k h s a) (Add k' h s a).
Proof. intros K. unfold Add. apply le_bind; [apply le_refl|intros c]. apply le_bind; [now apply Find_le|intros f]. apply le_refl. Qed.
Lemma remove_loop_le : forall k k' h s a x, (k <= k')%nat -> le_res (remove_loop k h s a x) (remove_loop k' h s a x).
Proof.
  induction k as [|k IH]; intros k' h s n x K.
  - destruct k' as [|k']; [apply le_refl|]. cbn [remove_loop]. destruct (is_ptr x s); [apply le_refl|now left].
  - destruct k' as [|k']; [lia|]. cbn [remove_loop]. destruct (is_ptr x s); [apply le_refl|]. destruct (is_ptr x n); [apply le_refl|].
    apply le_bind; [apply le_refl|intros c]. apply IH. lia.
Qed.
Lemma Remove_le k k' h s a : (k <= k')%nat -> le_res (Remove k h s a) (Remove k' h s a).
Proof. intros K. unfold Remove. apply le_bind; [apply le_refl|intros c]. now apply remove_loop_le. Qed.
Lemma Set_le k k' h s n v : (k <= k')%nat -> le_res (SetAttribute k h s n v) (SetAttribute k' h s n v).
Proof.
  intros K. unfold SetAttribute. apply le_bind; [now apply Find_le|intros [a|]]; [apply le_refl|]. destruct (alloc _ _) as [h1 a]. now apply Add_le.
Qed.
Lemma RemoveA_le k k' h s n : (k <= k')%nat -> le_res (RemoveAttribute k h s n) (RemoveAttribute k' h s n).
Proof.
  intros K. unfold RemoveAttribute. apply le_bind; [now apply Find_le|intros [a|]]; [|apply le_refl]. apply le_bind; [now apply Remove_le|intros; apply le_refl].
Qed.
Lemma clear_loop_le : forall k k' h s, (k <= k')%nat -> le_res (clear_loop k h s) (clear_loop k' h s).
Proof.
  induction k as [|k IH]; intros k' h s K; rewrite !clear_loop_eq; (apply le_bind; [apply le_refl|intros [a|]]; [|apply le_refl]).
  - now left.
  - destruct k' as [|k']; [lia|]. apply le_bind; [now apply Remove_le|intros h1]. apply le_bind; [apply le_refl|intros h2]. apply IH. lia.
Qed.
Lemma copy_loop_le : forall k k' kf kf' h t x, (k <= k')%nat -> (kf <= kf')%nat -> le_res (copy_loop kf k h t x) (copy_loop kf' k' h t x).
Proof.
  induction k as [|k IH]; intros k' kf kf' h t [a|] K KF; try (destruct k'; apply le_refl); [now left|].
  destruct k' as [|k']; [lia|]. cbn [copy_loop]. apply le_bind; [apply le_refl|intros c]. apply le_bind; [now apply Set_le|intros h1]. apply le_bind; [apply le_refl|intros n]. apply IH; lia.
Qed.
Lemma Copy_le k k' h s t : (k <= k')%nat -> le_res (CopyAttributes k k h s t) (CopyAttributes k' k' h s t).
Proof. intros K. unfold CopyAttributes. apply le_bind; [apply le_refl|intros f]. now apply copy_loop_le. Qed.
Lemma astep_le k k' h c : (k <= k')%nat -> le_res (astep k h c) (astep k' h c).
Proof.
  intros K. destruct c; cbn [astep]; try apply le_refl.
  - apply le_bind; [now apply Set_le|intros; apply le_refl].
  - apply le_bind; [now apply RemoveA_le|intros; apply le_refl].
  - apply le_bind; [|intros; apply le_refl]. unfold delete_elem. apply le_bind; [now apply clear_loop_le|intros; apply le_refl].
  - destruct (new_set h) as [h1 t]. apply le_bind; [now apply Copy_le|intros; apply le_refl].
  - apply le_bind; [now apply clear_loop_le|intros h1]. apply le_bind; [now apply Copy_le|intros; apply le_refl].
Qed.

(** ** steps *)
Lemma live_perm h E E' : Permutation E E' -> live h E -> live h E'.
Proof. intros P. apply ah_perm. unfold rings. now apply Permutation_flat_map. Qed.
Lemma live_mid h E1 e E2 : live h (E1 ++ e :: E2) <-> ahrep h (ring e ++ rings (E1 ++ E2)).
Proof. split; apply ah_perm; [apply rings_mid|symmetry; apply rings_mid]. Qed.
Lemma live_snoc h E e : live h (E ++ [e]) <-> ahrep h (ring e ++ rings E).
Proof. rewrite live_mid, app_nil_r. reflexivity. Qed.
Lemma len_all E1 s l E2 : (S (List.length l) <= List.length (all_of (E1 ++ (s, l) :: E2)))%nat.
Proof. unfold all_of. rewrite flat_map_app. cbn [flat_map]. unfold addrs_of. cbn [fst snd]. rewrite !app_length. cbn [List.length]. rewrite map_length. lia. Qed.
Lemma elem_split (E : elems) s : In s (map fst E) -> exists E1 l E2, E = E1 ++ (s, l) :: E2.
Proof. intros I. apply in_map_iff in I. destruct I as ([s' l] & X & I). cbn in X. subst s'. apply in_split in I. destruct I as (E1 & E2 & ->). eauto. Qed.
Lemma new_set_ok h L : ahrep h L -> exists h', new_set h = (h', aunused h) /\ ahrep h' (ring (aunused h, []) ++ L) /\ ~ In (aunused h) (akeys L).
Proof.
  intros H. pose proof (ah_new h _ (mkA None None "" "") H) as H1. unfold new_set. destruct (alloc h (mkA None None "" "")) as [h1 a] eqn:EA. cbn [fst] in H1.
  assert (a = aunused h) as -> by (unfold alloc in EA; now injection EA as <- <-).
  destruct (aw0 _ _ _ _ (fun _ => mkA (Some (aunused h)) (Some (aunused h)) "" "") H1) as (h2 & E2 & H2 & _).
  unfold awrite in E2. rewrite (ah_get _ _ _ _ H1 (or_introl eq_refl)) in E2. cbn [dbind] in E2. injection E2 as <-. eexists. split; [reflexivity|]. split; [exact H2|].
  intros I. destruct H as [_ U]. specialize (U _ I). lia.
Qed.

Lemma step_ok k h E c : live h E -> allowed E c -> (List.length (all_of E) <= k)%nat ->
  exists h' r E', astep k h c = DOk (h', r) /\ did E c r E' /\ live h' E'.
Proof.
  intros H A K. destruct c as [|s n v|s n|s|s|t s|a n|a v]; cbn [allowed] in A; cbn [astep].
  - destruct (new_set_ok h _ H) as (h' & E1 & H' & N). rewrite E1. exists h', (Some (aunused h)), (E ++ [(aunused h, [])]). split; [reflexivity|]. split; [|now apply live_snoc].
    exists (aunused h). rewrite keys_rings in N. auto.
  - destruct (elem_split E s A) as (E1 & l & E2 & ->). pose proof (len_all E1 s l E2) as LL. apply live_mid in H.
    destruct (set_ok h s l _ k n v H ltac:(lia)) as (h' & l' & EQ & S1 & H' & _). rewrite EQ. exists h', None, (E1 ++ (s, l') :: E2). split; [reflexivity|]. split; [|now apply live_mid].
    split; [reflexivity|]. exists E1, l, E2, l'. auto.
  - destruct (elem_split E s A) as (E1 & l & E2 & ->). pose proof (len_all E1 s l E2) as LL. apply live_mid in H.
    destruct (remove_attr_ok h s l _ k n H ltac:(lia)) as (h' & l' & EQ & H' & D). rewrite EQ. exists h', None, (E1 ++ (s, l') :: E2). split; [reflexivity|]. split; [|now apply live_mid].
    split; [reflexivity|]. exists E1, l, E2, l'. auto.
  - destruct (elem_split E s A) as (E1 & l & E2 & ->). pose proof (len_all E1 s l E2) as LL. apply live_mid in H.
    destruct (delete_ok l k h s _ H ltac:(lia)) as (h' & EQ & H'). rewrite EQ. exists h', None, (E1 ++ E2). split; [reflexivity|]. split; [|exact H'].
    split; [reflexivity|]. exists E1, l, E2. auto.
  - destruct (elem_split E s A) as (E1 & l & E2 & ->). pose proof (len_all E1 s l E2) as LL.
    destruct (new_set_ok h _ H) as (h1 & EN & H1 & N). rewrite EN. rewrite keys_rings in N.
    assert (H1' : ahrep h1 (ring (aunused h, []) ++ ring (s, l) ++ rings (E1 ++ E2))) by (eapply ah_perm; [|exact H1]; apply Permutation_app_head; apply rings_mid).
    destruct (copy_ok s l _ _ k h1 ltac:(lia) H1') as (h2 & l' & EQ & S2 & H2 & _). rewrite EQ. exists h2, (Some (aunused h)), ((E1 ++ (s, l) :: E2) ++ [(aunused h, l')]).
    split; [reflexivity|]. split; [exists (aunused h), l, l'; split; [reflexivity|]; split; [apply in_elt|auto]|].
    apply live_snoc. eapply ah_perm; [|exact H2]. apply Permutation_app_head. symmetry. apply rings_mid.
  - destruct A as (A1 & A2 & NE). destruct (elem_split E t A1) as (E1 & lt & E2 & ->). pose proof (len_all E1 t lt E2) as LL.
    assert (A3 : In s (map fst (E1 ++ E2))).
    { rewrite map_app in A2 |- *. cbn [map fst] in A2. apply in_app_iff in A2. apply in_app_iff. destruct A2 as [I|[I|I]]; auto. congruence. }
    destruct (elem_split _ s A3) as (E3 & l & E4 & EQ). apply live_mid in H. destruct (clear_ok lt k h t _ H ltac:(lia)) as (h1 & EC & H1 & _). rewrite EC. cbn [dbind].
    assert (LS : (S (List.length l) <= k)%nat).
    { pose proof (len_all E3 s l E4) as L1. rewrite <- EQ in L1. unfold all_of in K, L1. rewrite flat_map_app in K, L1. cbn [flat_map] in K. rewrite !app_length in *. lia. }
    assert (PM : Permutation (rings (E1 ++ E2)) (ring (s, l) ++ rings (E3 ++ E4))) by exact (eq_ind_r (fun z => Permutation (rings z) _) (rings_mid E3 (s, l) E4) EQ).
    assert (H1' : ahrep h1 (ring (t, []) ++ ring (s, l) ++ rings (E3 ++ E4))) by (eapply ah_perm; [|exact H1]; apply Permutation_app_head; exact PM).
    destruct (copy_ok s l _ _ k h1 ltac:(lia) H1') as (h2 & l' & EQ2 & S2 & H2 & _). rewrite EQ2. exists h2, None, (E1 ++ (t, l') :: E2). split; [reflexivity|]. split.
    + split; [reflexivity|]. exists l. split; [|exists E1, lt, E2, l'; auto].
      assert (I : In (s, l) (E1 ++ E2)) by (exact (eq_ind_r (fun z => In (s, l) z) (in_elt (s, l) E3 E4) EQ)). apply in_app_iff in I. apply in_app_iff. destruct I; auto. right. now right.
    + apply (proj2 (live_mid h2 E1 (t, l') E2)). eapply ah_perm; [|exact H2]. apply Permutation_app_head. symmetry. exact PM.
  - destruct A as ([s l] & I & J). cbn [snd] in J. apply in_map_iff in J. destruct J as ([a' m v] & X & J). cbn in X. subst a'. apply in_split in I. destruct I as (E1 & E2 & ->).
    apply in_split in J. destruct J as (l1 & l2 & ->). apply live_mid in H. destruct (rename_ok h s l1 a m v n v (aset_name n) l2 _ H) as (h' & EQ & H' & _).
    { intros c N1 V1. unfold aset_name. now rewrite V1. }
    rewrite EQ. exists h', None, (E1 ++ (s, l1 ++ mkAttr a n v :: l2) :: E2). split; [reflexivity|]. split; [|now apply live_mid].
    split; [reflexivity|]. exists s, E1, (l1 ++ mkAttr a m v :: l2), E2, (l1 ++ mkAttr a n v :: l2). repeat split; auto. exists l1, m, v, l2. auto.
  - destruct A as ([s l] & I & J). cbn [snd] in J. apply in_map_iff in J. destruct J as ([a' n w] & X & J). cbn in X. subst a'. apply in_split in I. destruct I as (E1 & E2 & ->).
    apply in_split in J. destruct J as (l1 & l2 & ->). apply live_mid in H. destruct (rename_ok h s l1 a n w n v (aset_value v) l2 _ H) as (h' & EQ & H' & _).
    { intros c N1 V1. unfold aset_value. now rewrite N1. }
    rewrite EQ. exists h', None, (E1 ++ (s, l1 ++ mkAttr a n v :: l2) :: E2). split; [reflexivity|]. split; [|now apply live_mid].
    split; [reflexivity|]. exists s, E1, (l1 ++ mkAttr a n w :: l2), E2, (l1 ++ mkAttr a n v :: l2). repeat split; auto. exists l1, n, w, l2. auto.
Qed.
Lemma start_live : live no_attrs [].
Proof. apply links_live with (E0 := []). 
  - split; [split; [constructor|]|intros a []]. intros a c. cbn. split; [discriminate|intros []].
  - split; [constructor|]. split; [intros a; cbn; tauto|intros s l []].
Qed.
Lemma areach_live h : areach h -> exists E, live h E.
Proof.
  induction 1 as [|h E k c h' r R [E0 H0] L A S].
  - exists []. exact start_live.
  - pose proof (links_live h E E0 H0 L) as H. destruct (step_ok (Nat.max k (List.length (all_of E))) h E c H A ltac:(lia)) as (h2 & r2 & E' & EQ & _ & H').
    destruct (astep_le k (Nat.max k (List.length (all_of E))) h c ltac:(lia)) as [X|X]; [congruence|]. assert (h2 = h') by congruence. subst. eauto.
Qed.
Lemma self_assign k h E1 s l E2 : live h (E1 ++ (s, l) :: E2) -> (List.length (all_of (E1 ++ (s, l) :: E2)) <= k)%nat ->
  exists h', astep k h (AAssign s s) = DOk (h', None) /\ live h' (E1 ++ (s, []) :: E2).
Proof.
  intros H K. pose proof (len_all E1 s l E2). apply live_mid in H. cbn [astep]. destruct (clear_ok l k h s _ H ltac:(lia)) as (h1 & EC & H1 & _). rewrite EC. cbn [dbind].
  unfold CopyAttributes. rewrite (first_ok h1 s [] _ H1). cbn [hd_error option_map dbind]. exists h1. split; [destruct k; reflexivity|]. now apply live_mid.
Qed.

(** ** going through *)
Lemma goes_det next : forall l x l', goes_on next x l -> goes_on next x l' -> l = l'.
Proof.
  induction l as [|a l IH]; intros x l' G G'; inversion G; subst; inversion G'; subst; auto. f_equal. match goal with A : next a = DOk ?b, B : next a = DOk ?c |- _ => assert (c = b) by congruence; subst end.
  eapply IH; eassumption.
Qed.
Lemma goes_next_ok h s L : forall r l1 x, ahrep h (ring (s, l1 ++ x :: r) ++ L) -> goes_on (Next h) (Some (t_addr x)) (t_addr x :: map t_addr (until_blank r)).
Proof.
  induction r as [|y r IH]; intros l1 x H; (eapply goes_next; [eapply next_ok; exact H|]); cbn [until_blank]; [constructor|].
  destruct (blank y); cbn [hd_error option_map map]; [constructor|]. apply (IH (l1 ++ [x])). rewrite <- app_assoc. exact H.
Qed.
Lemma forwards_ok h s l L : ahrep h (ring (s, l) ++ L) -> forwards h s (map t_addr (reachable l)).
Proof.
  intros H. exists (option_map t_addr (hd_error l)). split; [eapply first_ok; exact H|]. destruct l as [|x r]; cbn; [constructor|]. now apply (goes_next_ok h s L r []).
Qed.
Lemma last_ok h s l L : ahrep h (ring (s, l) ++ L) -> Last h s = DOk (option_map t_addr (hd_error (rev l))).
Proof.
  intros H. unfold Last. rewrite (ah_get h _ s (head_cell s l) H (or_introl eq_refl)). cbn [dbind head_cell a_prev]. destruct (snoc_case l) as [->|(q & x & ->)].
  - cbn. now rewrite Z.eqb_refl.
  - rewrite lastz_app, rev_app_distr. cbn [lastz rev app hd_error option_map is_ptr]. destruct (Z.eqb_spec (t_addr x) s) as [X|_]; [|reflexivity].
    exfalso. apply (head_out _ _ _ _ H x); [apply in_elt|exact X].
Qed.
Lemma prev_ok h s l1 x r L : ahrep h (ring (s, l1 ++ x :: r) ++ L) -> Previous h (t_addr x) = DOk (option_map t_addr (hd_error (until_blank (rev l1)))).
Proof.
  intros H. unfold Previous. assert (HP := H). apply (ah_perm _ _ _ (Permutation_app_tail L (ring_mid s l1 x r))) in HP.
  rewrite (ah_get _ _ _ _ HP (or_introl eq_refl)). cbn [dbind a_prev]. destruct (snoc_case l1) as [->|(q & y & ->)].
  - cbn [lastz]. rewrite (ah_get h _ s (head_cell s ([] ++ x :: r)) H (or_introl eq_refl)). reflexivity.
  - rewrite lastz_app. cbn [lastz]. assert (G : aget h (Some (t_addr y)) = DOk (mkA (Some (lastz s q)) (Some (hdz (x :: r) s)) (t_name y) (t_value y))).
    { eapply ah_get; [exact H|]. apply in_or_app. left. rewrite <- app_assoc. cbn [app]. eapply Permutation_in; [symmetry; apply ring_mid|]. now left. }
    rewrite G. cbn [dbind]. rewrite rev_app_distr. cbn [rev app until_blank]. unfold is_blank, blank. cbn [a_value a_name]. rewrite andb_comm.
    destruct (String.eqb (t_name y) "" && String.eqb (t_value y) ""); reflexivity.
Qed.
Lemma goes_prev_ok h s L : forall q r x, ahrep h (ring (s, rev q ++ x :: r) ++ L) -> goes_on (Previous h) (Some (t_addr x)) (t_addr x :: map t_addr (until_blank q)).
Proof.
  induction q as [|y q IH]; intros r x H; (eapply goes_next; [eapply prev_ok; exact H|]); rewrite rev_involutive; cbn [until_blank]; [constructor|].
  destruct (blank y); cbn [hd_error option_map map]; [constructor|]. apply (IH (x :: r)). cbn [rev] in H. rewrite <- app_assoc in H. exact H.
Qed.
Lemma backwards_ok h s l L : ahrep h (ring (s, l) ++ L) -> backwards h s (map t_addr (reachable (rev l))).
Proof.
  intros H. exists (option_map t_addr (hd_error (rev l))). split; [eapply last_ok; exact H|]. destruct (rev l) as [|x q] eqn:E; cbn; [constructor|].
  apply (goes_prev_ok h s L q []). rewrite <- (rev_involutive l), E in H. exact H.
Qed.
Lemma attribute_ok h s l L k n : ahrep h (ring (s, l) ++ L) -> (List.length l <= k)%nat -> Attribute k h s n = DOk (option_map t_value (find (named n) l)).
Proof.
  intros H K. unfold Attribute. rewrite (find_ok h s l L k n H K). destruct (find (named n) l) as [x|] eqn:F; cbn [option_map dbind]; [|reflexivity].
  destruct (find_some n l _ F) as (l1 & l2 & -> & _ & _). assert (G : aget h (Some (t_addr x)) = DOk (mkA (Some (lastz s l1)) (Some (hdz l2 s)) (t_name x) (t_value x))).
  { eapply ah_get; [exact H|]. apply in_or_app. left. eapply Permutation_in; [symmetry; apply ring_mid|]. now left. }
  now rewrite G.
Qed.

(** ** lists *)
Lemma named_no n l : Forall (fun x => t_name x <> n) l -> find (named n) l = None.
Proof.
  induction 1 as [|x l N _ IH]; [reflexivity|]. cbn [find]. unfold named at 1. destruct (String.eqb_spec (t_name x) n); [contradiction|exact IH].
Qed.
Lemma find_app {A} (f : A -> bool) l r : find f (l ++ r) = match find f l with Some x => Some x | None => find f r end.
Proof. induction l as [|x l IH]; [reflexivity|]. cbn [app find]. destruct (f x); [reflexivity|exact IH]. Qed.
Lemma sets_same n v l l' : sets n v l l' -> option_map t_value (find (named n) l') = Some v.
Proof.
  destruct 1 as [l a w r N|l a N]; rewrite find_app, (named_no n l N); cbn [find named t_name]; unfold named; cbn [t_name]; now rewrite String.eqb_refl.
Qed.
Lemma sets_other n v m l l' : sets n v l l' -> m <> n -> find (named m) l' = find (named m) l.
Proof.
  intros S D. destruct S as [l a w r N|l a N]; rewrite !find_app; (destruct (find (named m) l); [reflexivity|]); cbn [find]; unfold named; cbn [t_name];
    (destruct (String.eqb_spec n m); [congruence|reflexivity]).
Qed.
Definition texts (l : list attr) : list (string * string) := map (fun x => (t_name x, t_value x)) l.
Lemma sets_fresh n v l l' : sets n v l l' -> ~ In n (map t_name l) -> exists a, l' = l ++ [mkAttr a n v].
Proof.
  intros S N. destruct S as [l a w r F|l a F]; [|eauto]. exfalso. apply N. rewrite map_app. apply in_elt.
Qed.
Lemma sets_all_exact : forall q l l', sets_all q l l' -> NoDup (map t_name l ++ map t_name q) -> texts l' = texts l ++ texts q.
Proof.
  induction q as [|x q IH]; intros l l' S N; inversion S; subst.
  - cbn. now rewrite app_nil_r.
  - cbn [map] in N. match goal with S1 : sets _ _ _ _ |- _ => destruct (sets_fresh _ _ _ _ S1) as (a & ->) end.
    { apply NoDup_remove_2 in N. intros I. apply N. apply in_or_app. now left. }
    rewrite (IH _ _ ltac:(eassumption)).
    + unfold texts. rewrite map_app. cbn [map t_name t_value]. now rewrite <- app_assoc.
    + rewrite map_app. cbn [map t_name]. now rewrite <- app_assoc.
Qed.
Lemma until_all l : forallb (fun x => negb (blank x)) l = true -> until_blank l = l.
Proof. induction l as [|x l IH]; [reflexivity|]. cbn [forallb until_blank]. destruct (blank x); [discriminate|]. cbn. intros H. now rewrite IH. Qed.
