(** Linked nodes: cells of a forest as a list, and what reading and writing does to it. *)
From Coq Require Import ZArith List String Bool Lia Permutation.
From Verif Require Import DomModel DomSpec.
Import ListNotations.
Open Scope Z_scope.

(** ** permutations *)
Lemma pf_cc {A} (x y : A) r r' : Permutation r (x :: r') -> Permutation (y :: r) (x :: y :: r').
Proof. intros H. rewrite H. apply perm_swap. Qed.
Lemma pf_ca {A} (x : A) y r r' : Permutation r (x :: r') -> Permutation (y ++ r) (x :: y ++ r').
Proof. intros H. rewrite H. symmetry. apply Permutation_middle. Qed.
Lemma pf_ac {A} (x : list A) y r r' : Permutation r (x ++ r') -> Permutation (y :: r) (x ++ y :: r').
Proof. intros H. rewrite H. apply Permutation_middle. Qed.
Lemma pf_aa {A} (x y r r' : list A) : Permutation r (x ++ r') -> Permutation (y ++ r) (x ++ y ++ r').
Proof. intros H. rewrite H. rewrite !app_assoc. apply Permutation_app_tail. apply Permutation_app_comm. Qed.
Lemma pf_end {A} (x : list A) : Permutation x (x ++ []).
Proof. rewrite app_nil_r. reflexivity. Qed.
Lemma pc_cons {A} (x : A) l R R' : Permutation R (x :: R') -> Permutation l R' -> Permutation (x :: l) R.
Proof. intros H1 H2. rewrite H1. now apply perm_skip. Qed.
Lemma pc_app {A} (x l R R' : list A) : Permutation R (x ++ R') -> Permutation l R' -> Permutation (x ++ l) R.
Proof. intros H1 H2. rewrite H1. now apply Permutation_app_head. Qed.
Lemma pc_one {A} (x R : list A) : Permutation (x ++ []) R -> Permutation x R.
Proof. now rewrite app_nil_r. Qed.
Ltac perm_find :=
  lazymatch goal with
  | |- Permutation (?y :: _) (?x :: _) => first [constr_eq x y; apply Permutation_refl | eapply pf_cc; perm_find]
  | |- Permutation (?y ++ _) (?x :: _) => eapply pf_ca; perm_find
  | |- Permutation (?y :: _) (?x ++ _) => eapply pf_ac; perm_find
  | |- Permutation (?y ++ _) (?x ++ _) => first [constr_eq x y; apply Permutation_refl | eapply pf_aa; perm_find]
  | |- Permutation ?y (?x ++ _) => constr_eq x y; apply pf_end
  end.
Ltac perm_go :=
  lazymatch goal with
  | |- Permutation [] [] => apply perm_nil
  | |- Permutation (_ :: _) _ => eapply pc_cons; [perm_find|perm_go]
  | |- Permutation (_ ++ _) _ => eapply pc_app; [perm_find|perm_go]
  | |- Permutation _ _ => first [apply Permutation_refl | apply pc_one; perm_go]
  end.
Ltac perm := cbn [app]; repeat (first [rewrite <- app_assoc | rewrite <- app_comm_cons | rewrite app_nil_r]); cbn [app]; perm_go.

(** ** cells of trees *)
Definition hd_of (l : list tree) (nxt : option Z) : option Z := match l with [] => nxt | t :: _ => Some (addr t) end.
Fixpoint last_of (prv : option Z) (l : list tree) : option Z := match l with [] => prv | t :: r => last_of (Some (addr t)) r end.
Definition cell_of (par prv nxt : option Z) (t : tree) : cell := mkCell par (hd_of (kids t) None) (last_of None (kids t)) prv nxt (dat t).
Fixpoint ct (par prv nxt : option Z) (t : tree) {struct t} : list (Z * cell) :=
  (addr t, cell_of par prv nxt t) ::
  match t with Node a d ch =>
    (fix go (prv : option Z) (l : list tree) : list (Z * cell) :=
       match l with [] => [] | t :: r => ct (Some a) prv (hd_of r None) t ++ go (Some (addr t)) r end) None ch
  end.
Fixpoint cl (par prv : option Z) (l : list tree) (nxt : option Z) : list (Z * cell) :=
  match l with [] => [] | t :: r => ct par prv (hd_of r nxt) t ++ cl par (Some (addr t)) r nxt end.
Lemma ct_eq par prv nxt a d ch : ct par prv nxt (Node a d ch) = (a, cell_of par prv nxt (Node a d ch)) :: cl (Some a) None ch None.
Proof.
  cbn [ct addr]. f_equal.
  assert (G : forall l p, (fix go (prv : option Z) (l : list tree) : list (Z * cell) :=
       match l with [] => [] | t :: r => ct (Some a) prv (hd_of r None) t ++ go (Some (addr t)) r end) p l = cl (Some a) p l None).
  { induction l as [|t r IH]; intros p; [reflexivity|]. cbn [cl]. f_equal. apply IH. }
  apply G.
Qed.
Lemma ct_eq' par prv nxt t : ct par prv nxt t = (addr t, cell_of par prv nxt t) :: cl (Some (addr t)) None (kids t) None.
Proof. destruct t. apply ct_eq. Qed.
Lemma cl_app par : forall l1 prv l2 nxt, cl par prv (l1 ++ l2) nxt = cl par prv l1 (hd_of l2 nxt) ++ cl par (last_of prv l1) l2 nxt.
Proof.
  induction l1 as [|t l1 IH]; intros prv l2 nxt; [reflexivity|]. cbn [cl app last_of]. rewrite IH, app_assoc. f_equal. f_equal.
  destruct l1; reflexivity.
Qed.
Lemma last_of_app : forall l1 prv l2, last_of prv (l1 ++ l2) = last_of (last_of prv l1) l2.
Proof. induction l1 as [|t l1 IH]; intros; [reflexivity|]. cbn. apply IH. Qed.
Lemma hd_of_app l1 l2 nxt : hd_of (l1 ++ l2) nxt = hd_of l1 (hd_of l2 nxt).
Proof. destruct l1; reflexivity. Qed.
Definition keys (L : list (Z * cell)) : list Z := map fst L.

(** induction over trees *)
Fixpoint tsize (t : tree) : nat := match t with Node _ _ ch => S (list_sum (map tsize ch)) end.
Lemma tree_ind' (P : tree -> Prop) : (forall a d ch, Forall P ch -> P (Node a d ch)) -> forall t, P t.
Proof.
  intros H. fix IH 1. intros [a d ch]. apply H. induction ch as [|t r IHr]; constructor; [apply IH|exact IHr].
Qed.
Lemma tsize_addrs t : tsize t = List.length (addrs t).
Proof.
  induction t as [a d ch IH] using tree_ind'. cbn. f_equal. induction IH as [|t r Ht _ IHr]; [reflexivity|]. cbn [map flat_map]. rewrite app_length, <- Ht, <- IHr. reflexivity.
Qed.
Lemma keys_ct : forall t par prv nxt, keys (ct par prv nxt t) = addrs t.
Proof.
  induction t as [a d ch IH] using tree_ind'. intros. rewrite ct_eq. cbn. f_equal.
  generalize (None : option Z) at 1 as p.
  induction IH as [|t r Ht _ IHr]; intros p; [reflexivity|]. cbn [cl flat_map]. unfold keys in *. rewrite map_app, Ht, IHr. reflexivity.
Qed.
Lemma keys_cl par : forall l prv nxt, keys (cl par prv l nxt) = all l.
Proof. induction l as [|t l IH]; intros; [reflexivity|]. cbn. unfold keys in *. rewrite map_app, IH. f_equal. apply keys_ct. Qed.

(** ** heaps *)
Definition repr (m : Z -> option cell) (L : list (Z * cell)) : Prop :=
  NoDup (keys L) /\ forall a c, m a = Some c <-> In (a, c) L.
Definition hrep (h : heap) (L : list (Z * cell)) : Prop := repr (cells h) L /\ forall a, In a (keys L) -> a < unused h.
Lemma keys_perm L L' : Permutation L L' -> Permutation (keys L) (keys L').
Proof. apply Permutation_map. Qed.
Lemma hrep_perm h L L' : Permutation L L' -> hrep h L -> hrep h L'.
Proof.
  intros P [[N R] U]. split; [split|].
  - eapply Permutation_NoDup; [apply keys_perm; exact P|exact N].
  - intros a c. rewrite R. split; apply Permutation_in; [exact P|now symmetry].
  - intros a I. apply U. eapply Permutation_in; [symmetry; apply keys_perm; exact P|exact I].
Qed.
Lemma in_keys a c L : In (a, c) L -> In a (keys L).
Proof. intros I. apply (in_map fst) in I. exact I. Qed.
Lemma hrep_get h L a c : hrep h L -> In (a, c) L -> get h a = DOk c.
Proof. intros [[N R] U] I. unfold get. apply R in I. now rewrite I. Qed.
Lemma hrep_get1 h L a c : hrep h ((a, c) :: L) -> get h a = DOk c.
Proof. intros H. eapply hrep_get; [exact H|now left]. Qed.
Lemma upd_eq {A} (m : Z -> A) a x : upd m a x a = x. Proof. unfold upd. now rewrite Z.eqb_refl. Qed.
Lemma upd_ne {A} (m : Z -> A) a b x : b <> a -> upd m a x b = m b. Proof. unfold upd. intros. destruct (Z.eqb_spec b a); [contradiction|reflexivity]. Qed.
Lemma hrep_put h L a c c' : hrep h ((a, c) :: L) -> hrep (put h a (Some c')) ((a, c') :: L).
Proof.
  intros [[N R] U]. split; [split|]; [exact N| |exact U]. cbn [cells put]. intros b x. cbn [keys map fst] in N. apply NoDup_cons_iff in N. destruct N as [N1 N2].
  destruct (Z.eq_dec b a) as [->|NE].
  - rewrite upd_eq. split.
    + intros E. injection E as ->. now left.
    + intros [E|I]; [congruence|]. exfalso. apply N1. eapply in_keys; exact I.
  - rewrite upd_ne by assumption. rewrite R. split; intros [E|I]; try (injection E as E1 E2; congruence); now right.
Qed.
Lemma hrep_write h L a c f : hrep h ((a, c) :: L) -> write h a f = DOk (put h a (Some (f c))) /\ hrep (put h a (Some (f c))) ((a, f c) :: L).
Proof. intros H. split; [|eapply hrep_put; exact H]. unfold write. rewrite (hrep_get1 h L a c H). reflexivity. Qed.
Lemma hrep_del h L a c : hrep h ((a, c) :: L) -> hrep (put h a None) L.
Proof.
  intros [[N R] U]. cbn [keys map fst] in N. apply NoDup_cons_iff in N. destruct N as [N1 N2]. split; [split|]; [exact N2| |].
  - cbn [cells put]. intros b x. destruct (Z.eq_dec b a) as [->|NE].
    + rewrite upd_eq. split; [discriminate|]. intros I. exfalso. apply N1. eapply in_keys; exact I.
    + rewrite upd_ne by assumption. rewrite R. split; [intros [E|I]; [injection E as E1 E2; congruence|exact I]|intros I; now right].
  - intros b I. apply U. now right.
Qed.
Lemma hrep_new h L d : hrep h L -> hrep (fst (new_node h d)) ((unused h, mkCell None None None None None d) :: L).
Proof.
  intros [[N R] U]. cbn [fst new_node]. assert (NI : ~ In (unused h) (keys L)) by (intros I; apply U in I; lia). split; [split|].
  - cbn. constructor; assumption.
  - cbn [cells]. intros b x. destruct (Z.eq_dec b (unused h)) as [->|NE].
    + rewrite upd_eq. split; [intros E; injection E as <-; now left|]. intros [E|I]; [congruence|]. exfalso. apply NI. eapply in_keys; exact I.
    + rewrite upd_ne by assumption. rewrite R. split; [now right|]. intros [E|I]; [injection E as E1 E2; congruence|exact I].
  - cbn [unused]. intros b [E|I]; [cbn in E; lia|]. apply U in I. lia.
Qed.

(** ** deleting *)
Lemma del_kids_ok k l : Forall (fun t => forall k par prv nxt h L, (tsize t <= k)%nat -> hrep h (ct par prv nxt t ++ L) ->
    exists h', destroy k h (addr t) = DOk h' /\ hrep h' L /\ unused h' = unused h) l ->
  forall n par prv h L, (list_sum (map tsize l) <= k)%nat -> (List.length l <= n)%nat -> hrep h (cl par prv l None ++ L) ->
  exists h', del_kids (destroy k) n h (hd_of l None) = DOk h' /\ hrep h' L /\ unused h' = unused h.
Proof.
  intros F. induction F as [|t l Ht _ IH]; intros n par prv h L K N H.
  - exists h. destruct n; cbn; auto.
  - destruct n as [|n]; [cbn in N; lia|]. cbn [hd_of del_kids]. cbn [cl] in H. rewrite <- app_assoc in H.
    assert (G : get h (addr t) = DOk (cell_of par prv (hd_of l None) t)).
    { eapply hrep_get; [exact H|]. apply in_or_app. left. rewrite ct_eq'. now left. }
    rewrite G. cbn [dbind]. change (list_sum (map tsize (t :: l))) with (tsize t + list_sum (map tsize l))%nat in K.
    destruct (Ht k par prv (hd_of l None) h (cl par (Some (addr t)) l None ++ L) ltac:(lia) H) as (h1 & E1 & H1 & U1).
    rewrite E1. cbn [dbind]. change (c_next (cell_of par prv (hd_of l None) t)) with (hd_of l None).
    destruct (IH n par (Some (addr t)) h1 L) as (h2 & E2 & H2 & U2); [lia|cbn in N; lia|exact H1|].
    exists h2. split; [exact E2|]. split; [exact H2|congruence].
Qed.
Lemma length_sum l : (List.length l <= list_sum (map tsize l))%nat.
Proof.
  induction l as [|[a d ch] l IH]; [cbn; lia|]. change (list_sum (map tsize (Node a d ch :: l))) with (S (list_sum (map tsize ch)) + list_sum (map tsize l))%nat.
  cbn [List.length]. lia.
Qed.
Lemma destroy_ok : forall t k par prv nxt h L, (tsize t <= k)%nat -> hrep h (ct par prv nxt t ++ L) ->
  exists h', destroy k h (addr t) = DOk h' /\ hrep h' L /\ unused h' = unused h.
Proof.
  induction t as [a d ch IH] using tree_ind'. intros k par prv nxt h L K H. destruct k as [|k]; [cbn in K; lia|].
  rewrite ct_eq in H. cbn [app] in H. cbn [destroy addr]. rewrite (hrep_get1 _ _ _ _ H). cbn [dbind].
  change (c_first (cell_of par prv nxt (Node a d ch))) with (hd_of ch None). cbn [tsize] in K.
  destruct (del_kids_ok k ch IH k (Some a) None h ((a, cell_of par prv nxt (Node a d ch)) :: L)) as (h1 & E1 & H1 & U1);
    [lia|pose proof (length_sum ch); lia|eapply hrep_perm; [|exact H]; perm|].
  rewrite E1. cbn [dbind]. rewrite (hrep_get1 _ _ _ _ H1). cbn [dbind]. eexists. split; [reflexivity|]. split; [eapply hrep_del; exact H1|exact U1].
Qed.
Lemma del_all_ok k n l par prv h L : (list_sum (map tsize l) <= k)%nat -> (List.length l <= n)%nat -> hrep h (cl par prv l None ++ L) ->
  exists h', del_kids (destroy k) n h (hd_of l None) = DOk h' /\ hrep h' L /\ unused h' = unused h.
Proof. apply del_kids_ok. apply Forall_forall. intros t _. apply destroy_ok. Qed.

(** ** linking *)
Lemma last_case (l : list tree) : l = [] \/ exists l0 t, l = l0 ++ [t].
Proof. destruct l as [|x l]; [now left|right]. destruct (exists_last (l := x :: l)) as (l0 & t & ->); [discriminate|]. eauto. Qed.
Lemma link_ok par prv nxt p d ch n dn chn cn h L : c_first cn = hd_of chn None -> c_last cn = last_of None chn -> c_data cn = dn ->
  hrep h (ct par prv nxt (Node p d ch) ++ (n, cn) :: cl (Some n) None chn None ++ L) ->
  exists h', LinkEndChild h p n = DOk h' /\ hrep h' (ct par prv nxt (Node p d (ch ++ [Node n dn chn])) ++ L) /\ unused h' = unused h.
Proof.
  intros C1 C2 C3 H. rewrite ct_eq in H. unfold LinkEndChild.
  set (cp := cell_of par prv nxt (Node p d ch)) in *.
  assert (H0 : hrep h ((n, cn) :: (p, cp) :: cl (Some p) None ch None ++ cl (Some n) None chn None ++ L)) by (eapply hrep_perm; [|exact H]; perm).
  destruct (hrep_write _ _ _ _ (set_parent (Some p)) H0) as [E1 H1]. rewrite E1. cbn [dbind]. clear E1 H0 H. set (h1 := put h n _) in *.
  assert (G1 : get h1 p = DOk cp) by (eapply hrep_get; [exact H1|right; now left]). rewrite G1. cbn [dbind].
  change (c_last cp) with (last_of None ch).
  destruct (hrep_write _ _ _ _ (set_prev (last_of None ch)) H1) as [E2 H2]. rewrite E2. cbn [dbind]. clear E2 H1 G1. set (h2 := put h1 n _) in *.
  destruct (hrep_write _ _ _ _ (set_next None) H2) as [E3 H3]. rewrite E3. cbn [dbind]. clear E3 H2. set (h3 := put h2 n _) in *.
  assert (G3 : get h3 p = DOk cp) by (eapply hrep_get; [exact H3|right; now left]). rewrite G3. cbn [dbind]. clear G3.
  change (c_last cp) with (last_of None ch).
  destruct (last_case ch) as [->|(ch0 & t & ->)].
  - cbn [last_of]. cbn [cl app] in H3.
    assert (H3' : hrep h3 ((p, cp) :: (n, set_next None (set_prev (last_of None []) (set_parent (Some p) cn))) :: cl (Some n) None chn None ++ L)) by (eapply hrep_perm; [|exact H3]; perm).
    destruct (hrep_write _ _ _ _ (set_first (Some n)) H3') as [E4 H4]. rewrite E4. cbn [dbind].
    destruct (hrep_write _ _ _ _ (set_last (Some n)) H4) as [E5 H5]. rewrite E5. eexists. split; [reflexivity|]. split; [|reflexivity].
    eapply hrep_perm; [|exact H5]. rewrite ct_eq. cbn [app cl]. rewrite ct_eq. cbn [hd_of app].
    unfold cp, cell_of, set_last, set_first, set_next, set_prev, set_parent.
    cbn [c_parent c_first c_last c_prev c_next c_data kids dat hd_of last_of addr app]. rewrite C1, C2, C3. perm.
  - rewrite last_of_app. cbn [last_of]. rewrite cl_app in H3. cbn [cl hd_of app] in H3. rewrite app_nil_r, (ct_eq' _ _ _ t) in H3.
    rewrite last_of_app in H3. cbn [last_of] in H3.
    assert (H3' : hrep h3 ((addr t, cell_of (Some p) (last_of None ch0) None t) :: (p, cp) :: (n, set_next None (set_prev (Some (addr t)) (set_parent (Some p) cn))) ::
      cl (Some p) None ch0 (Some (addr t)) ++ cl (Some (addr t)) None (kids t) None ++ cl (Some n) None chn None ++ L)) by (eapply hrep_perm; [|exact H3]; perm).
    destruct (hrep_write _ _ _ _ (set_next (Some n)) H3') as [E4 H4]. rewrite E4. cbn [dbind]. clear E4 H3 H3'.
    apply (hrep_perm _ _ ((p, cp) :: (addr t, set_next (Some n) (cell_of (Some p) (last_of None ch0) None t)) :: (n, set_next None (set_prev (Some (addr t)) (set_parent (Some p) cn))) ::
      cl (Some p) None ch0 (Some (addr t)) ++ cl (Some (addr t)) None (kids t) None ++ cl (Some n) None chn None ++ L)) in H4; [|perm].
    destruct (hrep_write _ _ _ _ (set_last (Some n)) H4) as [E5 H5]. rewrite E5. eexists. split; [reflexivity|]. split; [|reflexivity].
    eapply hrep_perm; [|exact H5]. rewrite ct_eq. rewrite <- app_assoc. cbn [app]. rewrite cl_app. cbn [cl hd_of addr]. rewrite ct_eq, (ct_eq' _ _ _ t).
    unfold cp, cell_of, set_last, set_first, set_next, set_prev, set_parent.
    cbn [c_parent c_first c_last c_prev c_next c_data kids dat addr]. rewrite !hd_of_app, !last_of_app. cbn [hd_of last_of addr]. rewrite C1, C2, C3. perm.
Qed.
