(** Attributes as rings: the cells of a ring, and what the calls do to them. *)
From Coq Require Import ZArith List String Bool Lia Permutation.
From Verif Require Import DomModel DomProofs DomProofs2 DomProofs3 AttrModel AttrSpec.
Import ListNotations.
Open Scope Z_scope.

(** ** heaps *)
Definition akeys (L : list (Z * acell)) : list Z := map fst L.
Definition arepr (m : Z -> option acell) (L : list (Z * acell)) : Prop := NoDup (akeys L) /\ forall a c, m a = Some c <-> In (a, c) L.
Definition ahrep (h : aheap) (L : list (Z * acell)) : Prop := arepr (acells h) L /\ forall a, In a (akeys L) -> a < aunused h.
Lemma akeys_perm L L' : Permutation L L' -> Permutation (akeys L) (akeys L'). Proof. apply Permutation_map. Qed.
Lemma ah_perm h L L' : Permutation L L' -> ahrep h L -> ahrep h L'.
Proof.
  intros P [[N R] U]. split; [split|].
  - eapply Permutation_NoDup; [apply akeys_perm; exact P|exact N].
  - intros a c. rewrite R. split; apply Permutation_in; [exact P|now symmetry].
  - intros a I. apply U. eapply Permutation_in; [symmetry; apply akeys_perm; exact P|exact I].
Qed.
Lemma in_akeys a c L : In (a, c) L -> In a (akeys L). Proof. intros I. apply (in_map fst) in I. exact I. Qed.
Lemma ah_get h L a c : ahrep h L -> In (a, c) L -> aget h (Some a) = DOk c.
Proof. intros [[N R] U] I. unfold aget. apply R in I. now rewrite I. Qed.
Lemma ah_put h L a c c' : ahrep h ((a, c) :: L) -> ahrep (aput h a (Some c')) ((a, c') :: L).
Proof.
  intros [[N R] U]. split; [split|]; [exact N| |exact U]. cbn [acells aput]. intros b x. cbn [akeys map fst] in N. apply NoDup_cons_iff in N. destruct N as [N1 N2].
  destruct (Z.eq_dec b a) as [->|NE].
  - rewrite upd_eq. split.
    + intros E. injection E as ->. now left.
    + intros [E|I]; [congruence|]. exfalso. apply N1. eapply in_akeys; exact I.
  - rewrite upd_ne by assumption. rewrite R. split; intros [E|I]; try (injection E as E1 E2; congruence); now right.
Qed.
Lemma ah_del h L a c : ahrep h ((a, c) :: L) -> exists h', del h a = DOk h' /\ ahrep h' L /\ aunused h' = aunused h.
Proof.
  intros H. unfold del. rewrite (ah_get _ _ _ _ H (or_introl eq_refl)). cbn [dbind]. eexists. split; [reflexivity|]. split; [|reflexivity].
  destruct H as [[N R] U]. cbn [akeys map fst] in N. apply NoDup_cons_iff in N. destruct N as [N1 N2]. split; [split|]; [exact N2| |].
  - cbn [acells aput]. intros b x. destruct (Z.eq_dec b a) as [->|NE].
    + rewrite upd_eq. split; [discriminate|]. intros I. exfalso. apply N1. eapply in_akeys; exact I.
    + rewrite upd_ne by assumption. rewrite R. split; [intros [E|I]; [injection E as E1 E2; congruence|exact I]|intros I; now right].
  - intros b I. apply U. now right.
Qed.
Lemma ah_new h L c : ahrep h L -> ahrep (fst (alloc h c)) ((aunused h, c) :: L).
Proof.
  intros [[N R] U]. cbn [fst alloc]. assert (NI : ~ In (aunused h) (akeys L)) by (intros I; apply U in I; lia). split; [split|].
  - cbn. constructor; assumption.
  - cbn [acells]. intros b x. destruct (Z.eq_dec b (aunused h)) as [->|NE].
    + rewrite upd_eq. split; [intros E; injection E as <-; now left|]. intros [E|I]; [congruence|]. exfalso. apply NI. eapply in_akeys; exact I.
    + rewrite upd_ne by assumption. rewrite R. split; [now right|]. intros [E|I]; [injection E as E1 E2; congruence|exact I].
  - cbn [aunused]. intros b [E|I]; [cbn in E; lia|]. apply U in I. lia.
Qed.
Lemma aw0 h L a c f : ahrep h ((a, c) :: L) -> exists h', awrite h (Some a) f = DOk h' /\ ahrep h' ((a, f c) :: L) /\ aunused h' = aunused h.
Proof.
  intros H. unfold awrite. rewrite (ah_get _ _ _ _ H (or_introl eq_refl)). cbn [dbind]. eexists. split; [reflexivity|]. split; [|reflexivity]. eapply ah_put; exact H.
Qed.
Lemma aw1 h L x1 a c f : ahrep h (x1 :: (a, c) :: L) -> exists h', awrite h (Some a) f = DOk h' /\ ahrep h' (x1 :: (a, f c) :: L) /\ aunused h' = aunused h.
Proof.
  intros H. destruct (aw0 h (x1 :: L) a c f) as (h' & E & H' & U); [eapply ah_perm; [|exact H]; perm|].
  exists h'. split; [exact E|]. split; [|exact U]. eapply ah_perm; [|exact H']. perm.
Qed.
Lemma aw2 h L x1 x2 a c f : ahrep h (x1 :: x2 :: (a, c) :: L) -> exists h', awrite h (Some a) f = DOk h' /\ ahrep h' (x1 :: x2 :: (a, f c) :: L) /\ aunused h' = aunused h.
Proof.
  intros H. destruct (aw0 h (x1 :: x2 :: L) a c f) as (h' & E & H' & U); [eapply ah_perm; [|exact H]; perm|].
  exists h'. split; [exact E|]. split; [|exact U]. eapply ah_perm; [|exact H']. perm.
Qed.
Ltac awr H := lazymatch goal with |- context [awrite ?h ?a ?f] =>
  let h' := fresh "h" in let E := fresh "E" in let H' := fresh "H" in let U := fresh "U" in
  first [destruct (aw0 h _ _ _ f H) as (h' & E & H' & U); rewrite E | destruct (aw1 h _ _ _ _ f H) as (h' & E & H' & U); rewrite E
        | destruct (aw2 h _ _ _ _ _ f H) as (h' & E & H' & U); rewrite E];
  cbn [dbind]; clear E H; rename H' into H end.
Ltac ard H := lazymatch goal with |- context [aget ?h (Some ?a)] =>
  let G := fresh "G" in
  first [pose proof (ah_get h _ a _ H (or_introl eq_refl)) as G | pose proof (ah_get h _ a _ H (or_intror (or_introl eq_refl))) as G
        | pose proof (ah_get h _ a _ H (or_intror (or_intror (or_introl eq_refl)))) as G];
  rewrite G; cbn [dbind]; clear G end.
Ltac acells_norm := unfold aset_prev, aset_next, aset_name, aset_value in *; cbn [a_prev a_next a_name a_value] in *.

(** ** rings *)
Definition hdz (l : list attr) (s : Z) : Z := match l with [] => s | x :: _ => t_addr x end.
Fixpoint lastz (p : Z) (l : list attr) : Z := match l with [] => p | x :: r => lastz (t_addr x) r end.
Fixpoint chain (p : Z) (l : list attr) (s : Z) : list (Z * acell) :=
  match l with [] => [] | x :: r => (t_addr x, mkA (Some p) (Some (hdz r s)) (t_name x) (t_value x)) :: chain (t_addr x) r s end.
Definition head_cell (s : Z) (l : list attr) : acell := mkA (Some (lastz s l)) (Some (hdz l s)) "" "".
Definition ring (e : elem) : list (Z * acell) := (fst e, head_cell (fst e) (snd e)) :: chain (fst e) (snd e) (fst e).
Definition rings (E : elems) : list (Z * acell) := flat_map ring E.
Lemma chain_app : forall l1 p l2 s, chain p (l1 ++ l2) s = chain p l1 (hdz l2 s) ++ chain (lastz p l1) l2 s.
Proof. induction l1 as [|x l1 IH]; intros; [reflexivity|]. cbn. rewrite IH. f_equal. f_equal. f_equal. destruct l1; reflexivity. Qed.
Lemma lastz_app : forall l1 p l2, lastz p (l1 ++ l2) = lastz (lastz p l1) l2.
Proof. induction l1 as [|x l1 IH]; intros; [reflexivity|]. cbn. apply IH. Qed.
Lemma hdz_app l1 l2 s : hdz (l1 ++ l2) s = hdz l1 (hdz l2 s). Proof. destruct l1; reflexivity. Qed.
Lemma keys_chain : forall l p s, akeys (chain p l s) = map t_addr l.
Proof. induction l as [|x l IH]; intros; [reflexivity|]. cbn. f_equal. apply IH. Qed.
Lemma keys_ring e : akeys (ring e) = addrs_of e.
Proof. unfold ring, addrs_of. cbn. f_equal. apply keys_chain. Qed.
Lemma keys_rings E : akeys (rings E) = all_of E.
Proof. induction E as [|e E IH]; [reflexivity|]. unfold akeys, rings, all_of in *. cbn [flat_map]. rewrite map_app, IH. f_equal. apply keys_ring. Qed.
Lemma rings_mid E1 e E2 : Permutation (rings (E1 ++ e :: E2)) (ring e ++ rings (E1 ++ E2)).
Proof. unfold rings. rewrite !flat_map_app. cbn [flat_map]. perm. Qed.
Lemma head_out h s l L : ahrep h (ring (s, l) ++ L) -> forall x, In x l -> t_addr x <> s.
Proof.
  intros [[N _] _] x I E. unfold akeys in N. rewrite map_app in N. apply nodup_l in N. fold (akeys (ring (s, l))) in N. rewrite keys_ring in N. cbn in N.
  apply NoDup_cons_iff in N. destruct N as [N _]. apply N. change (In s (map t_addr l)). rewrite <- E. now apply in_map.
Qed.

(** ** Find *)
Lemma find_loop_ok h L s n : ahrep h L -> forall l p k, incl (chain p l s) L -> (forall x, In x l -> t_addr x <> s) -> (List.length l <= k)%nat ->
  find_loop k h s n (Some (hdz l s)) = DOk (option_map t_addr (find (named n) l)).
Proof.
  intros H. induction l as [|x l IH]; intros p k I O K.
  - destruct k; cbn; rewrite Z.eqb_refl; reflexivity.
  - destruct k as [|k]; [cbn in K; lia|]. cbn [hdz find_loop is_ptr]. destruct (Z.eqb_spec (t_addr x) s) as [E|_]; [exfalso; now apply (O x (or_introl eq_refl))|].
    cbn [chain] in I. rewrite (ah_get _ _ _ _ H (I _ (or_introl eq_refl))). cbn [dbind a_name a_next find]. unfold named at 1.
    destruct (String.eqb (t_name x) n); [reflexivity|]. apply (IH (t_addr x)); [intros y Hy; apply I; now right|intros y Hy; apply O; now right|cbn in K; lia].
Qed.
Lemma find_ok h s l L k n : ahrep h (ring (s, l) ++ L) -> (List.length l <= k)%nat -> Find k h s n = DOk (option_map t_addr (find (named n) l)).
Proof.
  intros H K. unfold Find. rewrite (ah_get h _ s (head_cell s l) H (or_introl eq_refl)). cbn [dbind head_cell a_next].
  eapply find_loop_ok; [exact H| |eapply head_out; exact H|exact K]. intros x Hx. apply in_or_app. left. right. exact Hx.
Qed.
Lemma find_none n l : find (named n) l = None -> Forall (fun x => t_name x <> n) l.
Proof.
  intros E. apply Forall_forall. intros x I EN. apply (find_none _ _ E) in I. unfold named in I. rewrite EN, String.eqb_refl in I. discriminate.
Qed.
Lemma find_some n l x : find (named n) l = Some x -> exists l1 l2, l = l1 ++ x :: l2 /\ t_name x = n /\ Forall (fun y => t_name y <> n) l1.
Proof.
  induction l as [|y l IH]; intros E; [discriminate|]. cbn in E. unfold named in E at 1. destruct (String.eqb_spec (t_name y) n) as [EN|NE].
  - injection E as ->. exists [], l. auto.
  - destruct (IH E) as (l1 & l2 & -> & EN & F). exists (y :: l1), l2. split; [reflexivity|]. split; [exact EN|]. constructor; assumption.
Qed.

(** ** Add, Remove *)
Lemma snoc_case (l : list attr) : l = [] \/ exists l0 y, l = l0 ++ [y].
Proof. destruct l as [|x l]; [now left|right]. destruct (exists_last (l := x :: l)) as (l0 & t & ->); [discriminate|]. eauto. Qed.
Lemma add_ok h s l L k a n v pv nx : ahrep h ((a, mkA pv nx n v) :: ring (s, l) ++ L) -> (List.length l <= k)%nat -> find (named n) l = None ->
  exists h', Add k h s a = DOk h' /\ ahrep h' (ring (s, l ++ [mkAttr a n v]) ++ L) /\ aunused h' = aunused h.
Proof.
  intros H K F. unfold Add. ard H. cbn [a_name].
  assert (H0 : ahrep h (ring (s, l) ++ (a, mkA pv nx n v) :: L)) by (eapply ah_perm; [|exact H]; perm).
  rewrite (find_ok h s l _ k n H0 K). clear H0. rewrite F. cbn [option_map dbind].
  unfold ring in H. cbn [fst snd] in H. destruct (snoc_case l) as [->|(l0 & y & ->)].
  - cbn [chain app] in H. unfold head_cell in H. cbn [lastz hdz] in H.
    awr H. ard H. cbn [a_prev]. awr H. ard H. cbn [a_prev]. awr H. awr H. eexists. split; [reflexivity|]. split; [|congruence].
    eapply ah_perm; [|exact H]. unfold ring, head_cell. cbn [fst snd chain app lastz hdz t_addr t_name t_value]. acells_norm. perm.
  - rewrite chain_app in H. cbn [chain hdz] in H. unfold head_cell in H. rewrite lastz_app in H. cbn [lastz] in H.
    apply (ah_perm _ _ ((a, mkA pv nx n v) :: (s, mkA (Some (t_addr y)) (Some (hdz (l0 ++ [y]) s)) "" "") ::
      (t_addr y, mkA (Some (lastz s l0)) (Some s) (t_name y) (t_value y)) :: chain s l0 (t_addr y) ++ L)) in H; [|perm].
    awr H. ard H. cbn [a_prev]. awr H. ard H. cbn [a_prev]. awr H. awr H. eexists. split; [reflexivity|]. split; [|congruence].
    eapply ah_perm; [|exact H]. unfold ring, head_cell. cbn [fst snd]. rewrite !chain_app, !lastz_app, !hdz_app. cbn [chain lastz hdz t_addr t_name t_value]. rewrite ?lastz_app. cbn [lastz]. acells_norm. rewrite ?hdz_app. cbn [hdz]. perm.
Qed.
Lemma unlink_ok h s l1 x l2 L : ahrep h (ring (s, l1 ++ x :: l2) ++ L) ->
  exists h', (c <-- aget h (Some (t_addr x)) ;; h <-- awrite h (a_prev c) (aset_next (a_next c)) ;; c <-- aget h (Some (t_addr x)) ;;
     h <-- awrite h (a_next c) (aset_prev (a_prev c)) ;; h <-- awrite h (Some (t_addr x)) (aset_next None) ;; awrite h (Some (t_addr x)) (aset_prev None)) = DOk h' /\
    ahrep h' ((t_addr x, mkA None None (t_name x) (t_value x)) :: ring (s, l1 ++ l2) ++ L) /\ aunused h' = aunused h.
Proof.
  intros H. unfold ring, head_cell in H. cbn [fst snd] in H. rewrite chain_app, lastz_app, hdz_app in H. cbn [chain hdz lastz] in H.
  destruct (snoc_case l1) as [->|(l0 & y & ->)], l2 as [|z l2].
  - cbn [chain app hdz lastz] in H.
    apply (ah_perm _ _ ((t_addr x, mkA (Some s) (Some s) (t_name x) (t_value x)) :: (s, mkA (Some (t_addr x)) (Some (t_addr x)) "" "") :: L)) in H; [|perm].
    ard H. cbn [a_prev a_next]. awr H. ard H. cbn [a_prev a_next]. awr H. awr H. awr H. eexists. split; [reflexivity|]. split; [|congruence].
    eapply ah_perm; [|exact H]. unfold ring, head_cell. cbn [fst snd chain app lastz hdz]. acells_norm. perm.
  - cbn [chain app hdz lastz] in H.
    apply (ah_perm _ _ ((t_addr x, mkA (Some s) (Some (t_addr z)) (t_name x) (t_value x)) :: (s, mkA (Some (lastz (t_addr z) l2)) (Some (t_addr x)) "" "") ::
      (t_addr z, mkA (Some (t_addr x)) (Some (hdz l2 s)) (t_name z) (t_value z)) :: chain (t_addr z) l2 s ++ L)) in H; [|perm].
    ard H. cbn [a_prev a_next]. awr H. ard H. cbn [a_prev a_next]. awr H. awr H. awr H. eexists. split; [reflexivity|]. split; [|congruence].
    eapply ah_perm; [|exact H]. unfold ring, head_cell. cbn [fst snd chain app lastz hdz]. acells_norm. perm.
  - rewrite chain_app, lastz_app, hdz_app in H. cbn [chain hdz lastz app] in H.
    apply (ah_perm _ _ ((t_addr x, mkA (Some (t_addr y)) (Some s) (t_name x) (t_value x)) :: (s, mkA (Some (t_addr x)) (Some (hdz l0 (t_addr y))) "" "") ::
      (t_addr y, mkA (Some (lastz s l0)) (Some (t_addr x)) (t_name y) (t_value y)) :: chain s l0 (t_addr y) ++ L)) in H; [|perm].
    ard H. cbn [a_prev a_next]. awr H. ard H. cbn [a_prev a_next]. awr H. awr H. awr H. eexists. split; [reflexivity|]. split; [|congruence].
    eapply ah_perm; [|exact H]. unfold ring, head_cell. cbn [fst snd]. rewrite app_nil_r, chain_app, lastz_app, hdz_app. cbn [chain app lastz hdz]. acells_norm. perm.
  - rewrite chain_app, lastz_app, hdz_app in H. cbn [chain hdz lastz app] in H.
    apply (ah_perm _ _ ((t_addr x, mkA (Some (t_addr y)) (Some (t_addr z)) (t_name x) (t_value x)) ::
      (t_addr y, mkA (Some (lastz s l0)) (Some (t_addr x)) (t_name y) (t_value y)) ::
      (t_addr z, mkA (Some (t_addr x)) (Some (hdz l2 s)) (t_name z) (t_value z)) ::
      (s, mkA (Some (lastz (t_addr z) l2)) (Some (hdz l0 (t_addr y))) "" "") :: chain (t_addr z) l2 s ++ chain s l0 (t_addr y) ++ L)) in H; [|perm].
    ard H. cbn [a_prev a_next]. awr H. ard H. cbn [a_prev a_next]. awr H. awr H. awr H. eexists. split; [reflexivity|]. split; [|congruence].
    eapply ah_perm; [|exact H]. unfold ring, head_cell. cbn [fst snd]. rewrite !chain_app, !lastz_app, !hdz_app. cbn [chain app lastz hdz]. rewrite ?chain_app, ?lastz_app, ?hdz_app. cbn [chain app lastz hdz]. acells_norm. perm.
Qed.
