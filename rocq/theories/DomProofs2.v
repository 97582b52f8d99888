(** Linked nodes: copies, and a node within its forest. *)
From Coq Require Import ZArith List String Bool Lia Permutation.
From Verif Require Import DomModel DomSpec DomProofs.
Import ListNotations.
Open Scope Z_scope.

(** ** copies *)
Definition clone_spec (t : tree) : Prop := forall k par prv nxt h L, (tsize t <= k)%nat -> hrep h L -> incl (ct par prv nxt t) L ->
  exists h' t', Clone k h (addr t) = DOk (h', addr t') /\ hrep h' (ct None None None t' ++ L) /\ same t t' /\
    (forall x, In x (addrs t') -> unused h <= x) /\ unused h <= unused h'.
Lemma copy_kids_ok kc l : Forall clone_spec l -> forall n par prv tpar tprv tnxt p d ch h L,
  (list_sum (map tsize l) <= kc)%nat -> (List.length l <= n)%nat -> hrep h (ct tpar tprv tnxt (Node p d ch) ++ L) -> incl (cl par prv l None) L ->
  exists h' ch', copy_kids (Clone kc) n h p (hd_of l None) = DOk h' /\ hrep h' (ct tpar tprv tnxt (Node p d (ch ++ ch')) ++ L) /\
    Forall2 same l ch' /\ (forall x, In x (all ch') -> unused h <= x) /\ unused h <= unused h'.
Proof.
  intros F. induction F as [|t l Ht _ IH]; intros n par prv tpar tprv tnxt p d ch h L K N H I.
  - exists h, []. rewrite app_nil_r. destruct n; cbn; (split; [reflexivity|]; split; [exact H|]; split; [constructor|]; split; [intros x []|lia]).
  - destruct n as [|n]; [cbn in N; lia|]. cbn [hd_of copy_kids]. cbn [cl] in I.
    change (list_sum (map tsize (t :: l))) with (tsize t + list_sum (map tsize l))%nat in K.
    destruct (Ht kc par prv (hd_of l None) h (ct tpar tprv tnxt (Node p d ch) ++ L)) as (h1 & t' & E1 & H1 & S1 & A1 & U1);
      [lia|exact H|intros x Hx; apply in_or_app; right; apply I; apply in_or_app; now left|].
    rewrite E1. cbn [dbind fst snd].
    destruct (link_ok tpar tprv tnxt p d ch (addr t') (dat t') (kids t') (cell_of None None None t') h1 L eq_refl eq_refl eq_refl) as (h2 & E2 & H2 & U2).
    { eapply hrep_perm; [|exact H1]. rewrite (ct_eq' None None None t'). perm. }
    rewrite E2. cbn [dbind]. replace (Node (addr t') (dat t') (kids t')) with t' in H2 by (destruct t'; reflexivity).
    assert (G : get h2 (addr t) = DOk (cell_of par prv (hd_of l None) t)).
    { eapply hrep_get; [exact H2|]. apply in_or_app. right. apply I. apply in_or_app. left. rewrite ct_eq'. now left. }
    rewrite G. cbn [dbind]. change (c_next (cell_of par prv (hd_of l None) t)) with (hd_of l None).
    destruct (IH n par (Some (addr t)) tpar tprv tnxt p d (ch ++ [t']) h2 L) as (h3 & ch' & E3 & H3 & S3 & A3 & U3);
      [lia|cbn in N; lia|exact H2|intros x Hx; apply I; apply in_or_app; now right|].
    exists h3, (t' :: ch'). split; [exact E3|]. split; [rewrite <- app_assoc in H3; exact H3|]. split; [constructor; assumption|].
    split; [|lia]. intros x Hx. cbn in Hx. apply in_app_or in Hx. destruct Hx as [Hx|Hx]; [now apply A1|]. apply A3 in Hx. lia.
Qed.
Lemma clone_ok : forall t, clone_spec t.
Proof.
  induction t as [a d ch IH] using tree_ind'. intros k par prv nxt h L K H I. destruct k as [|k]; [cbn in K; lia|].
  assert (G : get h a = DOk (cell_of par prv nxt (Node a d ch))) by (eapply hrep_get; [exact H|]; apply I; rewrite ct_eq; now left).
  cbn [Clone addr]. rewrite G. cbn [dbind]. change (c_data (cell_of par prv nxt (Node a d ch))) with d.
  pose proof (hrep_new h L d H) as H1. cbn [fst] in H1. destruct (new_node h d) as [h1 b] eqn:EN. cbn [fst] in H1.
  assert (EB : b = unused h) by (unfold new_node in EN; injection EN as _ <-; reflexivity). subst b.
  assert (U1 : unused h1 = unused h + 1) by (unfold new_node in EN; injection EN as <-; reflexivity).
  destruct (has_kids d) eqn:HK.
  - change (c_first (cell_of par prv nxt (Node a d ch))) with (hd_of ch None). cbn [tsize] in K.
    destruct (copy_kids_ok k ch IH k (Some a) None None None None (unused h) d [] h1 L) as (h2 & ch' & E2 & H2 & S2 & A2 & U2);
      [lia|pose proof (length_sum ch); lia|rewrite ct_eq; exact H1|intros x Hx; apply I; rewrite ct_eq; now right|].
    rewrite E2. cbn [dbind]. exists h2, (Node (unused h) d ch'). split; [reflexivity|]. split; [exact H2|]. split.
    + constructor. change (container (n_kind d)) with (has_kids d). rewrite HK. exact S2.
    + split; [|lia]. intros x [<-|Hx]; [lia|]. apply A2 in Hx. lia.
  - exists h1, (Node (unused h) d []). split; [reflexivity|]. split; [rewrite ct_eq; exact H1|]. split.
    + constructor. change (container (n_kind d)) with (has_kids d). rewrite HK. constructor.
    + split; [|lia]. intros x [<-|[]]. lia.
Qed.
Lemma copy_all_ok kc n l par prv tpar tprv tnxt p d ch h L :
  (list_sum (map tsize l) <= kc)%nat -> (List.length l <= n)%nat -> hrep h (ct tpar tprv tnxt (Node p d ch) ++ L) -> incl (cl par prv l None) L ->
  exists h' ch', copy_kids (Clone kc) n h p (hd_of l None) = DOk h' /\ hrep h' (ct tpar tprv tnxt (Node p d (ch ++ ch')) ++ L) /\
    Forall2 same l ch' /\ (forall x, In x (all ch') -> unused h <= x) /\ unused h <= unused h'.
Proof. apply copy_kids_ok. apply Forall_forall. intros t _. apply clone_ok. Qed.

(** ** a node within its forest *)
Lemma in_all F x : In x (all F) <-> exists t, In t F /\ In x (addrs t).
Proof. unfold all. apply in_flat_map. Qed.
Lemma sub_addrs : forall T S, In S (subs T) -> incl (addrs S) (addrs T).
Proof.
  induction T as [a d ch IH] using tree_ind'. intros S [<-|I]; [apply incl_refl|]. cbn [addrs]. apply incl_tl.
  apply in_flat_map in I. destruct I as (t & I1 & I2). rewrite Forall_forall in IH. intros x Hx. apply in_flat_map. exists t. split; [exact I1|]. eapply IH; eauto.
Qed.
Lemma sub_addr T S : In S (subs T) -> In (addr S) (addrs T).
Proof. intros I. apply (sub_addrs T S I). destruct S. now left. Qed.
Lemma sub_trans : forall T S R, In S (subs T) -> In R (subs S) -> In R (subs T).
Proof.
  induction T as [a d ch IH] using tree_ind'. intros S R [<-|I] J; [exact J|]. right.
  apply in_flat_map in I. destruct I as (t & I1 & I2). rewrite Forall_forall in IH. apply in_flat_map. exists t. split; [exact I1|]. eapply IH; eauto.
Qed.
Lemma addr_sub : forall T x, In x (addrs T) -> exists S, In S (subs T) /\ addr S = x.
Proof.
  induction T as [a d ch IH] using tree_ind'. intros x [<-|I]; [exists (Node a d ch); split; [now left|reflexivity]|].
  apply in_flat_map in I. destruct I as (t & I1 & I2). rewrite Forall_forall in IH. destruct (IH t I1 x I2) as (S & J1 & J2).
  exists S. split; [|exact J2]. right. apply in_flat_map. eauto.
Qed.
Lemma node_addr F x : In x (all F) <-> exists S, node_of F S /\ addr S = x.
Proof.
  rewrite in_all. split.
  - intros (t & I1 & I2). destruct (addr_sub t x I2) as (S & J1 & J2). exists S. split; [|exact J2]. apply in_flat_map. eauto.
  - intros (S & I & <-). apply in_flat_map in I. destruct I as (t & I1 & I2). exists t. split; [exact I1|]. now apply sub_addr.
Qed.
Lemma put_out p S : forall T, ~ In p (addrs T) -> put_at p S T = T.
Proof.
  induction T as [a d ch IH] using tree_ind'. intros N. cbn [put_at]. destruct (Z.eq_dec a p) as [->|NE]; [exfalso; apply N; now left|].
  f_equal. rewrite <- (map_id ch) at 2. apply map_ext_in. intros t I. rewrite Forall_forall in IH. apply IH; [exact I|].
  intros J. apply N. right. apply in_flat_map. eauto.
Qed.
Lemma put_out_all p S l : ~ In p (all l) -> map (put_at p S) l = l.
Proof. intros N. rewrite <- (map_id l) at 2. apply map_ext_in. intros t I. apply put_out. intros J. apply N. apply in_all. eauto. Qed.
Lemma put_addr p S T : addr S = p -> addr (put_at p S T) = addr T.
Proof. destruct T as [a d ch]. cbn. destruct (Z.eq_dec a p) as [->|NE]; [auto|reflexivity]. Qed.
Lemma all_app l1 l2 : all (l1 ++ l2) = all l1 ++ all l2.
Proof. apply flat_map_app. Qed.
Lemma all_mid l1 t l2 : all (l1 ++ t :: l2) = all l1 ++ addrs t ++ all l2.
Proof. unfold all. rewrite flat_map_app. reflexivity. Qed.
Lemma nodup_mid l1 t l2 p : NoDup (all (l1 ++ t :: l2)) -> In p (addrs t) -> ~ In p (all l1) /\ ~ In p (all l2).
Proof.
  rewrite all_mid. intros N I. split; intros J.
  - apply in_split in J. destruct J as (x & y & J). rewrite J in N. rewrite <- app_assoc in N. apply (NoDup_remove_2 x) in N. apply N. apply in_or_app. right. apply in_or_app. right. apply in_or_app. now left.
  - apply in_split in J. destruct J as (x & y & J). rewrite J in N. rewrite !app_assoc in N. apply NoDup_remove_2 in N. apply N. apply in_or_app. left. apply in_or_app. left. apply in_or_app. now right.
Qed.
Lemma nodup_r {A} (x y : list A) : NoDup (x ++ y) -> NoDup y.
Proof. induction x as [|a x IH]; [auto|]. cbn. intros N. apply NoDup_cons_iff in N. now apply IH. Qed.
Lemma nodup_l {A} (x y : list A) : NoDup (x ++ y) -> NoDup x.
Proof. intros N. apply (nodup_r y). eapply Permutation_NoDup; [apply Permutation_app_comm|exact N]. Qed.
Lemma nodup_part l1 t l2 : NoDup (all (l1 ++ t :: l2)) -> NoDup (addrs t).
Proof. rewrite all_mid. intros N. apply nodup_r in N. now apply nodup_l in N. Qed.
Lemma put_mid l1 t l2 p S : NoDup (all (l1 ++ t :: l2)) -> In p (addrs t) ->
  map (put_at p S) (l1 ++ t :: l2) = l1 ++ put_at p S t :: l2.
Proof.
  intros N I. destruct (nodup_mid l1 t l2 p N I) as [N1 N2]. rewrite map_app. cbn [map]. now rewrite (put_out_all p S l1 N1), (put_out_all p S l2 N2).
Qed.
Lemma last_of_put p S : addr S = p -> forall l prv, last_of prv (map (put_at p S) l) = last_of prv l.
Proof. intros E. induction l as [|t l IH]; intros prv; [reflexivity|]. cbn. now rewrite put_addr, IH. Qed.
Lemma hd_of_put p S l nxt : addr S = p -> hd_of (map (put_at p S) l) nxt = hd_of l nxt.
Proof. intros E. destruct l; cbn; [reflexivity|]. now rewrite put_addr. Qed.

Lemma focus_t : forall T S par prv nxt, NoDup (addrs T) -> In S (subs T) ->
  exists par' prv' nxt' L0, forall S', addr S' = addr S -> Permutation (ct par prv nxt (put_at (addr S) S' T)) (ct par' prv' nxt' S' ++ L0).
Proof.
  induction T as [a d ch IH] using tree_ind'. intros S par prv nxt N I. destruct (Z.eq_dec a (addr S)) as [E|NE].
  - exists par, prv, nxt, []. intros S' E'. cbn [put_at]. destruct (Z.eq_dec a (addr S)) as [_|NE]; [|contradiction]. rewrite app_nil_r. reflexivity.
  - destruct I as [<-|I]; [contradiction (NE eq_refl)|]. apply in_flat_map in I. destruct I as (t & I1 & I2).
    destruct (in_split t ch I1) as (l1 & l2 & ->). cbn [addrs] in N. apply NoDup_cons_iff in N. destruct N as [N1 N].
    change (flat_map addrs (l1 ++ t :: l2)) with (all (l1 ++ t :: l2)) in *. rewrite Forall_forall in IH.
    destruct (IH t I1 S (Some a) (last_of None l1) (hd_of l2 None) (nodup_part _ _ _ N) I2) as (par' & prv' & nxt' & L0 & P).
    exists par', prv', nxt', ((a, cell_of par prv nxt (Node a d (l1 ++ t :: l2))) :: cl (Some a) None l1 (Some (addr t)) ++ L0 ++ cl (Some a) (Some (addr t)) l2 None).
    intros S' E'. cbn [put_at]. destruct (Z.eq_dec a (addr S)) as [E|_]; [contradiction|].
    rewrite ct_eq. unfold cell_of at 1. cbn [kids dat]. rewrite hd_of_put, last_of_put by exact E'. fold (all (l1 ++ t :: l2)).
    rewrite (put_mid l1 t l2 (addr S) S' N) by (apply sub_addr; exact I2).
    rewrite cl_app. cbn [cl hd_of]. rewrite put_addr by exact E'. rewrite (P S' E').
    change {| c_parent := par; c_first := hd_of (l1 ++ t :: l2) None; c_last := last_of None (l1 ++ t :: l2); c_prev := prv; c_next := nxt; c_data := d |}
      with (cell_of par prv nxt (Node a d (l1 ++ t :: l2))). perm.
Qed.
Definition cf (F : forest) : list (Z * cell) := flat_map (ct None None None) F.
Lemma keys_cf F : keys (cf F) = all F.
Proof. induction F as [|t F IH]; [reflexivity|]. unfold keys, cf, all in *. cbn [flat_map]. rewrite map_app, IH. f_equal. apply keys_ct. Qed.
Lemma focus_F F S : NoDup (all F) -> node_of F S ->
  exists par' prv' nxt' L0, forall S', addr S' = addr S -> Permutation (cf (place (addr S) S' F)) (ct par' prv' nxt' S' ++ L0).
Proof.
  intros N I. apply in_flat_map in I. destruct I as (t & I1 & I2). destruct (in_split t F I1) as (l1 & l2 & ->).
  destruct (focus_t t S None None None (nodup_part _ _ _ N) I2) as (par' & prv' & nxt' & L0 & P).
  exists par', prv', nxt', (L0 ++ cf l1 ++ cf l2). intros S' E'. unfold place. rewrite (put_mid l1 t l2 (addr S) S' N) by (apply sub_addr; exact I2).
  unfold cf. rewrite flat_map_app. cbn [flat_map]. rewrite (P S' E'). perm.
Qed.
Lemma put_self : forall T S, NoDup (addrs T) -> In S (subs T) -> put_at (addr S) S T = T.
Proof.
  induction T as [a d ch IH] using tree_ind'. intros S N I. cbn [addrs] in N. apply NoDup_cons_iff in N. destruct N as [N1 N].
  destruct I as [<-|I].
  - cbn. destruct (Z.eq_dec a a); congruence.
  - apply in_flat_map in I. destruct I as (t & I1 & I2). destruct (in_split t ch I1) as (l1 & l2 & ->). cbn [put_at].
    destruct (Z.eq_dec a (addr S)) as [->|_].
    + exfalso. apply N1. apply in_flat_map. exists t. split; [exact I1|]. now apply sub_addr.
    + f_equal. rewrite (put_mid l1 t l2 (addr S) S N) by (now apply sub_addr). f_equal. f_equal. rewrite Forall_forall in IH.
      apply IH; [exact I1|eapply nodup_part; exact N|exact I2].
Qed.
Lemma place_self F S : NoDup (all F) -> node_of F S -> place (addr S) S F = F.
Proof.
  intros N I. apply in_flat_map in I. destruct I as (t & I1 & I2). destruct (in_split t F I1) as (l1 & l2 & ->). unfold place.
  rewrite (put_mid l1 t l2 (addr S) S N) by (now apply sub_addr). f_equal. f_equal. apply put_self; [eapply nodup_part; exact N|exact I2].
Qed.
(** the cells of the forest are those of the node and others that do not change with it *)
Lemma focus F S : NoDup (all F) -> node_of F S ->
  exists par prv nxt L0, Permutation (cf F) (ct par prv nxt S ++ L0) /\
    forall S', addr S' = addr S -> Permutation (cf (place (addr S) S' F)) (ct par prv nxt S' ++ L0).
Proof.
  intros N I. destruct (focus_F F S N I) as (par & prv & nxt & L0 & P). exists par, prv, nxt, L0. split; [|exact P].
  rewrite <- (P S eq_refl). now rewrite place_self.
Qed.
Lemma node_unique F S S' : NoDup (all F) -> node_of F S -> node_of F S' -> addr S = addr S' -> S = S'.
Proof.
  intros N I I' E. assert (G : forall T, NoDup (addrs T) -> In S (subs T) -> In S' (subs T) -> S = S').
  { clear -E. induction T as [a d ch IH] using tree_ind'. intros N I I'. cbn [addrs] in N. apply NoDup_cons_iff in N. destruct N as [N1 N].
    assert (OUT : forall R, In R (flat_map subs ch) -> addr R <> a).
    { intros R J E1. apply N1. rewrite <- E1. apply in_flat_map in J. destruct J as (t & J1 & J2). apply in_flat_map. exists t. split; [exact J1|]. now apply sub_addr. }
    destruct I as [<-|I], I' as [<-|I']; [reflexivity| | |].
    - exfalso. apply (OUT S' I'). now rewrite <- E.
    - exfalso. apply (OUT S I). exact E.
    - apply in_flat_map in I, I'. destruct I as (t & I1 & I2), I' as (t' & I1' & I2'). rewrite Forall_forall in IH.
      destruct (in_split t ch I1) as (l1 & l2 & ->). change (flat_map addrs (l1 ++ t :: l2)) with (all (l1 ++ t :: l2)) in *.
      destruct (nodup_mid l1 t l2 (addr S) N (sub_addr _ _ I2)) as [M1 M2].
      apply in_app_or in I1'. destruct I1' as [J|[<-|J]].
      + exfalso. apply M1. rewrite E. apply in_all. exists t'. split; [exact J|now apply sub_addr].
      + apply (IH t I1 (nodup_part _ _ _ N) I2 I2').
      + exfalso. apply M2. rewrite E. apply in_all. exists t'. split; [exact J|now apply sub_addr]. }
  apply in_flat_map in I, I'. destruct I as (t & I1 & I2), I' as (t' & I1' & I2').
  destruct (in_split t F I1) as (l1 & l2 & ->). destruct (nodup_mid l1 t l2 (addr S) N (sub_addr _ _ I2)) as [M1 M2].
  apply in_app_or in I1'. destruct I1' as [J|[<-|J]].
  - exfalso. apply M1. rewrite E. apply in_all. exists t'. split; [exact J|now apply sub_addr].
  - apply (G t (nodup_part _ _ _ N) I2 I2').
  - exfalso. apply M2. rewrite E. apply in_all. exists t'. split; [exact J|now apply sub_addr].
Qed.

(** ** which cells there are *)
Definition prev_at (prv : option Z) (l : list tree) (i : nat) : option Z := match i with O => prv | S j => option_map addr (nth_error l j) end.
Lemma cl_char par : forall l prv a c, In (a, c) (cl par prv l None) <->
  exists i x, nth_error l i = Some x /\ In (a, c) (ct par (prev_at prv l i) (option_map addr (nth_error l (S i))) x).
Proof.
  induction l as [|t l IH]; intros prv a c.
  - cbn. split; [contradiction|]. intros (i & x & E & _). destruct i; discriminate.
  - cbn [cl]. rewrite in_app_iff, IH. split.
    + intros [I|(i & x & E & I)].
      * exists O, t. split; [reflexivity|]. destruct l; exact I.
      * exists (S i), x. split; [exact E|]. destruct i; exact I.
    + intros (i & x & E & I). destruct i as [|i].
      * left. injection E as <-. destruct l; exact I.
      * right. exists i, x. split; [exact E|]. destruct i; exact I.
Qed.
Lemma ct_char : forall T par prv nxt a c, In (a, c) (ct par prv nxt T) <->
  (a = addr T /\ c = cell_of par prv nxt T) \/
  (exists p d ch i x, In (Node p d ch) (subs T) /\ nth_error ch i = Some x /\ a = addr x /\
     c = cell_of (Some p) (prev_at None ch i) (option_map addr (nth_error ch (S i))) x).
Proof.
  induction T as [b d ch IH] using tree_ind'. intros par prv nxt a c. rewrite ct_eq. cbn [In]. rewrite cl_char. rewrite Forall_forall in IH. split.
  - intros [E|(i & x & E & I)].
    + left. injection E as <- <-. split; reflexivity.
    + right. apply (IH x) in I; [|eapply nth_error_In; exact E]. destruct I as [[-> ->]|(p & d' & ch' & j & y & I1 & I2 & I3 & I4)].
      * exists b, d, ch, i, x. split; [now left|]. auto.
      * exists p, d', ch', j, y. split; [|auto]. right. apply in_flat_map. exists x. split; [eapply nth_error_In; exact E|exact I1].
  - intros [[-> ->]|(p & d' & ch' & j & y & [I1|I1] & I2 & I3 & I4)].
    + now left.
    + right. injection I1 as <- <- <-. exists j, y. split; [exact I2|]. rewrite ct_eq'. left. congruence.
    + right. apply in_flat_map in I1. destruct I1 as (x & I1 & I5). destruct (In_nth_error ch x I1) as [i E]. exists i, x. split; [exact E|].
      apply (IH x I1). right. exists p, d', ch', j, y. auto.
Qed.
Lemma cf_char F a c : In (a, c) (cf F) <->
  (exists t, In t F /\ a = addr t /\ c = cell_of None None None t) \/
  (exists p d ch i x, node_of F (Node p d ch) /\ nth_error ch i = Some x /\ a = addr x /\
     c = cell_of (Some p) (prev_at None ch i) (option_map addr (nth_error ch (S i))) x).
Proof.
  unfold cf. rewrite in_flat_map. split.
  - intros (t & I & J). apply ct_char in J. destruct J as [[-> ->]|(p & d & ch & i & x & J1 & J2)]; [left; eauto|].
    right. exists p, d, ch, i, x. split; [|exact J2]. apply in_flat_map. eauto.
  - intros [(t & I & -> & ->)|(p & d & ch & i & x & J1 & J2)].
    + exists t. split; [exact I|]. apply ct_char. now left.
    + apply in_flat_map in J1. destruct J1 as (t & I & J1). exists t. split; [exact I|]. apply ct_char. right. exists p, d, ch, i, x. auto.
Qed.
