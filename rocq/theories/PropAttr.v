(** C92: the attributes of elements under setting, removing, renaming, copying, assigning and deleting. *)
From Coq Require Import ZArith List String Bool Lia Permutation.
From Verif Require Import DomModel DomProofs DomProofs2 DomProofs3 AttrModel AttrSpec AttrProofs AttrProofs2 AttrProofs3.
Import ListNotations.
Open Scope Z_scope.

(** Whatever calls within the rules have been made, the links are those of rings of attributes, one for each element ... *)
Theorem C92_links : forall h, areach h -> exists E, links h E.
Proof. intros h R. destruct (areach_live h R) as (E & H). exists E. now apply live_links. Qed.
Print Assumptions C92_links.

(** ... and each further call within the rules returns, without undefined behaviour or failed assertion, having done what it
    should: once with as many turns as there are attributes and elements, and with any number of turns if it ends at all. *)
Theorem C92_calls : forall h E c k, areach h -> links h E -> allowed E c -> (List.length (all_of E) <= k)%nat ->
  exists h' r E', astep k h c = DOk (h', r) /\ did E c r E' /\ links h' E'.
Proof.
  intros h E c k R L A K. destruct (areach_live h R) as (E0 & H0). destruct (step_ok k h E c (links_live h E E0 H0 L) A K) as (h' & r & E' & EQ & D & H').
  exists h', r, E'. split; [exact EQ|]. split; [exact D|]. now apply live_links.
Qed.
Print Assumptions C92_calls.
Theorem C92_calls_any : forall h E c k, areach h -> links h E -> allowed E c ->
  astep k h c = DFuel \/ exists h' r E', astep k h c = DOk (h', r) /\ did E c r E' /\ links h' E'.
Proof.
  intros h E c k R L A. destruct (C92_calls h E c (Nat.max k (List.length (all_of E))) R L A ltac:(lia)) as (h' & r & E' & EQ & D).
  destruct (astep_le k (Nat.max k (List.length (all_of E))) h c ltac:(lia)) as [X|X]; [now left|right]. rewrite X. eauto.
Qed.
Print Assumptions C92_calls_any.
Theorem C92_no_leak : forall h, links h [] -> forall a, acells h a = None.
Proof. intros h (_ & A & _) a. destruct (acells h a) as [c|] eqn:E; [|reflexivity]. exfalso. apply (proj1 (A a)). rewrite E. discriminate. Qed.
Print Assumptions C92_no_leak.

Lemma at_elem h E s l : areach h -> links h E -> In (s, l) E -> exists L, ahrep h (ring (s, l) ++ L).
Proof.
  intros R L I. destruct (areach_live h R) as (E0 & H0). pose proof (links_live h E E0 H0 L) as H. apply in_split in I. destruct I as (E1 & E2 & ->).
  exists (rings (E1 ++ E2)). exact (proj1 (live_mid h E1 (s, l) E2) H).
Qed.
(** Attribute returns the value of the first attribute of that name. *)
Theorem C92_attribute : forall h E s l n k, areach h -> links h E -> In (s, l) E -> (List.length l <= k)%nat ->
  Attribute k h s n = DOk (option_map t_value (find (named n) l)).
Proof. intros h E s l n k R L I K. destruct (at_elem h E s l R L I) as (L0 & H). eapply attribute_ok; eassumption. Qed.
Print Assumptions C92_attribute.
(** Going through the attributes visits, forwards and backwards, those before one that has neither name nor value. *)
Theorem C92_forwards : forall h E s l q, areach h -> links h E -> In (s, l) E -> (forwards h s q <-> q = map t_addr (reachable l)).
Proof.
  intros h E s l q R L I. destruct (at_elem h E s l R L I) as (L0 & H). pose proof (forwards_ok h s l L0 H) as F. split; [|intros ->; exact F].
  intros (f & E1 & G1). destruct F as (f' & E2 & G2). assert (f' = f) by congruence. subst. eapply goes_det; eassumption.
Qed.
Print Assumptions C92_forwards.
Theorem C92_backwards : forall h E s l q, areach h -> links h E -> In (s, l) E -> (backwards h s q <-> q = map t_addr (reachable (rev l))).
Proof.
  intros h E s l q R L I. destruct (at_elem h E s l R L I) as (L0 & H). pose proof (backwards_ok h s l L0 H) as F. split; [|intros ->; exact F].
  intros (f & E1 & G1). destruct F as (f' & E2 & G2). assert (f' = f) by congruence. subst. eapply goes_det; eassumption.
Qed.
Print Assumptions C92_backwards.
(** So all are visited if each has a name or a value. *)
Theorem C92_visits_all : forall h E s l q, areach h -> links h E -> In (s, l) E -> Forall (fun x => t_name x <> ""%string \/ t_value x <> ""%string) l ->
  (forwards h s q <-> q = map t_addr l) /\ (backwards h s q <-> q = rev (map t_addr l)).
Proof.
  intros h E s l q R L I F. rewrite (C92_forwards h E s l q R L I), (C92_backwards h E s l q R L I), <- map_rev.
  assert (U : forall r, Forall (fun x => t_name x <> ""%string \/ t_value x <> ""%string) r -> reachable r = r).
  { intros [|x r] H; [reflexivity|]. cbn [reachable]. f_equal. apply until_all. apply forallb_forall. intros y J. inversion H as [|? ? _ H2]; subst. rewrite Forall_forall in H2.
    specialize (H2 y J). unfold blank. destruct (String.eqb_spec (t_name y) ""), (String.eqb_spec (t_value y) ""); auto. exfalso. intuition. }
  rewrite (U l F), (U (rev l)); [tauto|]. apply Forall_rev. exact F.
Qed.
Print Assumptions C92_visits_all.

(** What was set is what Attribute returns; other attributes keep their value, also those of other elements. *)
Theorem C92_set_get : forall h E s n v k, areach h -> links h E -> In s (map fst E) -> (List.length (all_of E) <= k)%nat ->
  exists h', astep k h (ASet s n v) = DOk (h', None) /\ Attribute k h' s n = DOk (Some v) /\
    (forall m, m <> n -> Attribute k h' s m = Attribute k h s m) /\
    (forall t m, In t (map fst E) -> t <> s -> Attribute k h' t m = Attribute k h t m).
Proof.
  intros h E s n v k R L I K. destruct (elem_split E s I) as (E1 & l & E2 & ->). pose proof (len_all E1 s l E2) as LL.
  destruct (at_elem h _ s l R L (in_elt _ _ _)) as (L0 & _). destruct (areach_live h R) as (E0 & H0). pose proof (links_live h _ E0 H0 L) as H. apply live_mid in H.
  destruct (set_ok h s l _ k n v H ltac:(lia)) as (h' & l' & EQ & S1 & H' & _ & LE). exists h'. cbn [astep]. rewrite EQ. split; [reflexivity|]. split; [|split].
  - rewrite (attribute_ok h' s l' _ k n H' ltac:(lia)). now rewrite (sets_same n v l l' S1).
  - intros m D. rewrite (attribute_ok h' s l' _ k m H' ltac:(lia)), (attribute_ok h s l _ k m H ltac:(lia)). now rewrite (sets_other n v m l l' S1 D).
  - intros t m J D. assert (J' : In t (map fst (E1 ++ E2))).
    { rewrite map_app in J |- *. cbn [map fst] in J. apply in_app_iff in J. apply in_app_iff. destruct J as [J|[J|J]]; auto. congruence. }
    destruct (elem_split _ t J') as (E3 & lt & E4 & EQ'). pose proof (len_all E3 t lt E4) as LT. rewrite <- EQ' in LT.
    assert (PM : Permutation (rings (E1 ++ E2)) (ring (t, lt) ++ rings (E3 ++ E4))) by exact (eq_ind_r (fun z => Permutation (rings z) _) (rings_mid E3 (t, lt) E4) EQ').
    assert (LL2 : (List.length lt <= k)%nat).
    { unfold all_of in K, LT. rewrite flat_map_app in K, LT. cbn [flat_map] in K. rewrite !app_length in *. lia. }
    assert (P2 : forall l0, Permutation (ring (s, l0) ++ rings (E1 ++ E2)) (ring (t, lt) ++ ring (s, l0) ++ rings (E3 ++ E4))).
    { intros l0. transitivity (ring (s, l0) ++ ring (t, lt) ++ rings (E3 ++ E4)); [now apply Permutation_app_head|]. rewrite !app_assoc. apply Permutation_app_tail. apply Permutation_app_comm. }
    rewrite (attribute_ok h' t lt _ k m (ah_perm _ _ _ (P2 l') H') LL2). now rewrite (attribute_ok h t lt _ k m (ah_perm _ _ _ (P2 l) H) LL2).
Qed.
Print Assumptions C92_set_get.

(** A copy has the names and values of its original in the same order, if each attribute has a name or a value and no name
    is there twice. *)
Theorem C92_copy : forall h E s l k, areach h -> links h E -> In (s, l) E -> (List.length (all_of E) <= k)%nat ->
  Forall (fun x => t_name x <> ""%string \/ t_value x <> ""%string) l -> NoDup (map t_name l) ->
  exists h' t l', astep k h (ACopy s) = DOk (h', Some t) /\ links h' (E ++ [(t, l')]) /\ map t_name l' = map t_name l /\ map t_value l' = map t_value l.
Proof.
  intros h E s l k R L I K F N. destruct (C92_calls h E (ACopy s) k R L ltac:(apply in_map_iff; exists (s, l); auto) K) as (h' & r & E' & EQ & (t & l2 & l' & -> & I2 & T & S & ->) & L').
  assert (l2 = l) as ->.
  { destruct L as (ND & _ & RR). apply in_split in I. destruct I as (E1 & E2 & ->). rewrite in_app_iff in I2. cbn [In] in I2.
    unfold all_of in ND. rewrite flat_map_app in ND. cbn [flat_map] in ND. unfold addrs_of at 2 in ND. cbn [fst snd app] in ND. apply NoDup_remove_2 in ND.
    destruct I2 as [I2|[I2|I2]]; [|congruence|]; exfalso; apply ND; apply in_or_app; [left|right; apply in_or_app; right]; apply in_flat_map; exists (s, l2); (split; [exact I2|now left]). }
  assert (RE : reachable l = l).
  { destruct l as [|x r]; [reflexivity|]. cbn [reachable]. f_equal. apply until_all. apply forallb_forall. intros y J. inversion F as [|? ? _ H2]; subst. rewrite Forall_forall in H2.
    specialize (H2 y J). unfold blank. destruct (String.eqb_spec (t_name y) ""), (String.eqb_spec (t_value y) ""); auto. exfalso. intuition. }
  rewrite RE in S. pose proof (sets_all_exact l [] l' S N) as X. cbn [texts map app] in X. exists h', t, l'. split; [exact EQ|]. split; [exact L'|].
  split; [change (map t_name l') with (map (fun x => fst (t_name x, t_value x)) l')|change (map t_value l') with (map (fun x => snd (t_name x, t_value x)) l')];
    rewrite <- (map_map (fun x => (t_name x, t_value x))); fold (texts l'); rewrite X; unfold texts; now rewrite map_map.
Qed.
Print Assumptions C92_copy.

(** An element assigned to itself loses its attributes. *)
Theorem C92_self_assign_refuted : forall h E1 s l E2 k, areach h -> links h (E1 ++ (s, l) :: E2) -> (List.length (all_of (E1 ++ (s, l) :: E2)) <= k)%nat ->
  exists h', astep k h (AAssign s s) = DOk (h', None) /\ links h' (E1 ++ (s, []) :: E2).
Proof.
  intros h E1 s l E2 k R L K. destruct (areach_live h R) as (E0 & H0). destruct (self_assign k h E1 s l E2 (links_live h _ E0 H0 L) K) as (h' & E & H').
  exists h'. split; [exact E|]. now apply live_links.
Qed.
Print Assumptions C92_self_assign_refuted.

(** ** examples *)
Fixpoint run (k : nat) (h : aheap) (cs : list acall) : dres aheap :=
  match cs with [] => DOk h | c :: cs => r <-- astep k h c ;; run k (fst r) cs end.
Definition after (cs : list acall) : aheap := match run 9 no_attrs cs with DOk h => h | _ => no_attrs end.
Ltac cases_in := repeat match goal with H : In _ _ |- _ => cbn in H | H : False |- _ => contradiction H | H : _ \/ _ |- _ => destruct H end.
Ltac nodup := match goal with |- NoDup [] => apply NoDup_nil | |- NoDup (_ :: _) => apply NoDup_cons; [cbn; intuition lia|nodup] end.
Ltac show_links := split; [cbn; nodup|split];
  [ intros a; cbn; unfold upd; repeat match goal with |- context [a =? ?x] => destruct (Z.eqb_spec a x); [subst; cbn; split; [auto 10|discriminate]|] end;
    split; [congruence|intros; exfalso; intuition congruence]
  | intros s l H; cases_in; match goal with H : _ = (_, _) |- _ => injection H as <- <- end; cbn; repeat split; reflexivity ].
Ltac next cs c E1 := eapply (areach_step (after cs) E1 9 c); [|cbv [after]; show_links| |reflexivity].
(** an element with two attributes and one without *)
Definition demo_calls : list acall := [ANew; ASet 1 "x" "3"; ASet 1 "y" "4"; ASet 1 "x" "5"; ANew].
Definition demo : elems := [(1, [mkAttr 2 "x" "5"; mkAttr 3 "y" "4"]); (4, [])].
Example demo_reach : areach (after demo_calls).
Proof.
  next [ANew; ASet 1 "x" "3"; ASet 1 "y" "4"; ASet 1 "x" "5"] ANew [(1, [mkAttr 2 "x" "5"; mkAttr 3 "y" "4"])]; [|exact Logic.I].
  next [ANew; ASet 1 "x" "3"; ASet 1 "y" "4"] (ASet 1 "x" "5") [(1, [mkAttr 2 "x" "3"; mkAttr 3 "y" "4"])]; [|cbn; auto].
  next [ANew; ASet 1 "x" "3"] (ASet 1 "y" "4") [(1, [mkAttr 2 "x" "3"])]; [|cbn; auto].
  next [ANew] (ASet 1 "x" "3") [(1, @nil attr)]; [|cbn; auto].
  next (@nil acall) ANew (@nil elem); [|exact Logic.I]. apply areach_start.
Qed.
Example demo_links : links (after demo_calls) demo.
Proof. cbv [after]. show_links. Qed.
Example demo_set : allowed demo (ASet 4 "z" "1"). Proof. cbn. auto. Qed.
Example demo_remove : allowed demo (ARemove 1 "x"). Proof. cbn. auto. Qed.
Example demo_assign : allowed demo (AAssign 4 1). Proof. cbn. repeat split; auto; lia. Qed.
Example demo_rename : allowed demo (ASetName 3 "x"). Proof. exists (1, [mkAttr 2 "x" "5"; mkAttr 3 "y" "4"]). cbn. auto. Qed.
Example demo_names : NoDup (map t_name [mkAttr 2 "x" "5"; mkAttr 3 "y" "4"]) /\ Forall (fun x => t_name x <> ""%string \/ t_value x <> ""%string) [mkAttr 2 "x" "5"; mkAttr 3 "y" "4"].
Proof.
  split; [cbn; apply NoDup_cons; [cbn; intros [X|[]]; discriminate|apply NoDup_cons; [intros []|apply NoDup_nil]]|].
  apply Forall_cons; [left; discriminate|apply Forall_cons; [left; discriminate|apply Forall_nil]].
Qed.
Example demo_get : Attribute 9 (after demo_calls) 1 "x" = DOk (Some "5"%string). Proof. reflexivity. Qed.
Example demo_forwards : forwards (after demo_calls) 1 [2; 3].
Proof. apply (C92_forwards _ demo 1 _ _ demo_reach demo_links (or_introl eq_refl)). reflexivity. Qed.

(** An attribute set to an empty value under the empty name hides those after it: they are there, but going through the
    attributes does not visit them, and a copy does not get them. *)
Theorem C92_hidden_refuted : exists cs, cs = [ANew; ASet 1 "x" "3"; ASet 1 "" ""; ASet 1 "y" "4"] /\
  areach (after cs) /\ Attribute 9 (after cs) 1 "y" = DOk (Some "4"%string) /\ forwards (after cs) 1 [2] /\
  Attribute 9 (after (cs ++ [ACopy 1])) 5 "y" = DOk None.
Proof.
  eexists. split; [reflexivity|]. assert (R : areach (after [ANew; ASet 1 "x" "3"; ASet 1 "" ""; ASet 1 "y" "4"])).
  { next [ANew; ASet 1 "x" "3"; ASet 1 "" ""] (ASet 1 "y" "4") [(1, [mkAttr 2 "x" "3"; mkAttr 3 "" ""])]; [|cbn; auto].
    next [ANew; ASet 1 "x" "3"] (ASet 1 "" "") [(1, [mkAttr 2 "x" "3"])]; [|cbn; auto].
    next [ANew] (ASet 1 "x" "3") [(1, @nil attr)]; [|cbn; auto].
    next (@nil acall) ANew (@nil elem); [|exact Logic.I]. apply areach_start. }
  split; [exact R|]. split; [reflexivity|]. split; [|reflexivity].
  refine (proj2 (C92_forwards _ [(1, [mkAttr 2 "x" "3"; mkAttr 3 "" ""; mkAttr 4 "y" "4"])] 1 _ _ R _ (or_introl eq_refl)) eq_refl). cbv [after]. show_links.
Qed.
Print Assumptions C92_hidden_refuted.
(** Renaming an attribute can give an element two of the same name, of which only the first is found. *)
Theorem C92_twice_refuted : exists h E l, areach h /\ links h E /\ In (1, l) E /\ map t_name l = ["x"; "x"]%string /\ map t_value l = ["3"; "4"]%string /\ Attribute 9 h 1 "x" = DOk (Some "3"%string).
Proof.
  exists (after [ANew; ASet 1 "x" "3"; ASet 1 "y" "4"; ASetName 3 "x"]), [(1, [mkAttr 2 "x" "3"; mkAttr 3 "x" "4"])], [mkAttr 2 "x" "3"; mkAttr 3 "x" "4"].
  split; [|split; [cbv [after]; show_links|split; [now left|auto]]].
  next [ANew; ASet 1 "x" "3"; ASet 1 "y" "4"] (ASetName 3 "x") [(1, [mkAttr 2 "x" "3"; mkAttr 3 "y" "4"])]; [|eexists; split; [now left|cbn; auto]].
  next [ANew; ASet 1 "x" "3"] (ASet 1 "y" "4") [(1, [mkAttr 2 "x" "3"])]; [|cbn; auto].
  next [ANew] (ASet 1 "x" "3") [(1, @nil attr)]; [|cbn; auto].
  next (@nil acall) ANew (@nil elem); [|exact Logic.I]. apply areach_start.
Qed.
Print Assumptions C92_twice_refuted.
