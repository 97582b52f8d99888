(** The invariant that ties memory and book together *)
From Coq Require Import ZArith List Bool Lia.
From Verif Require Import MemModel MemSpec.
Import ListNotations.
Open Scope Z_scope.

Definition somes (c : list (option Z)) : list Z := flat_map (fun o => match o with Some v => [v] | None => [] end) c.

Lemma in_somes : forall c v, In v (somes c) <-> In (Some v) c.
Proof.
  induction c as [|[w|] c IH]; intros v; cbn; [tauto| |].
  - rewrite IH. split; intros [H|H]; auto; [left; congruence | left; congruence].
  - rewrite IH. split; [auto|]. intros [H|H]; [discriminate | exact H].
Qed.
Lemma somes_app : forall a b, somes (a ++ b) = somes a ++ somes b.
Proof. intros a b. unfold somes. apply flat_map_app. Qed.
Lemma somes_none : forall n, somes (repeat None n) = [].
Proof. induction n; [reflexivity | exact IHn]. Qed.

Lemma upd_eq : forall A (f : Z -> A) a x, upd f a x a = x.
Proof. intros. unfold upd. rewrite Z.eqb_refl. reflexivity. Qed.
Lemma upd_neq : forall A (f : Z -> A) a x b, b <> a -> upd f a x b = f b.
Proof. intros A f a x b N. unfold upd. apply Z.eqb_neq in N. rewrite N. reflexivity. Qed.
Lemma put_eq : forall A (f : Z -> A) a x, put f a x a = x.
Proof. intros. unfold put. destruct (Z.eq_dec a a); congruence. Qed.
Lemma put_neq : forall A (f : Z -> A) a x b, b <> a -> put f a x b = f b.
Proof. intros A f a x b N. unfold put. destruct (Z.eq_dec b a); congruence. Qed.
Lemma is_true : forall a b, is a b = true <-> b = a.
Proof. intros a b. unfold is. destruct (Z.eq_dec b a); split; congruence. Qed.
Lemma is_refl : forall a, is a a = true.
Proof. intros a. apply is_true. reflexivity. Qed.
Lemma is_neq : forall a b, b <> a -> is a b = false.
Proof. intros a b N. unfold is. destruct (Z.eq_dec b a); congruence. Qed.

Record inv (m : mem) (b : book) : Prop := {
  i_vec : forall v, vecs m v = true <-> b_pads b v <> None;
  i_pad : forall v l, b_pads b v = Some l <-> exists x, lays m l = Some x /\ In v (somes (l_cache x));
  i_nd : forall l x, lays m l = Some x -> NoDup (somes (l_cache x));
  i_lay : forall l, lays m l <> None <-> b_lay b l <> None;
  i_own : forall l x, b_lay b l = Some (Some x) <-> exists y, mods m x = Some y /\ m_lay y = l;
  i_mod : forall x, mods m x <> None <-> b_mod b x <> None;
  i_in : forall x t, b_mod b x = Some (Some t) <-> exists y, tpcs m t = Some y /\ In x (t_mods y);
  i_ndm : forall t y, tpcs m t = Some y -> NoDup (t_mods y) /\ List.length (t_ids y) = List.length (t_mods y);
  i_tpc : forall t, tpcs m t <> None <-> b_tpc b t = true;
  i_next : forall a, next m <= a -> vecs m a = false /\ lays m a = None /\ mods m a = None /\ tpcs m a = None }.

Lemma inv_start : inv start empty_book.
Proof.
  constructor; cbn; intros; try (split; congruence); try congruence; auto.
  - split; [discriminate | intros [? [H _]]; discriminate].
  - split; [discriminate | intros [? [H _]]; discriminate].
  - split; [discriminate | intros [? [H _]]; discriminate].
Qed.

Lemma free_spec : forall c f, NoDup (somes c) -> (forall v, In v (somes c) -> f v = true) ->
  exists f', free_vecs c f = Some f' /\ forall v, f' v = true <-> f v = true /\ ~ In v (somes c).
Proof.
  induction c as [|[v|] c IH]; intros f N H.
  - exists f. split; [reflexivity|]. intros v. cbn. tauto.
  - cbn [free_vecs]. change (somes (Some v :: c)) with (v :: somes c) in *. rewrite (H v (or_introl eq_refl)).
    inversion N as [|? ? NI N2]; subst.
    destruct (IH (upd f v false) N2) as [f' [E1 E2]].
    + intros w I. rewrite upd_neq; [apply H; right; exact I | intros ->; contradiction].
    + exists f'. split; [exact E1|]. intros w. rewrite E2. cbn [In]. destruct (Z.eq_dec w v) as [->|NE].
      * rewrite upd_eq. intuition congruence.
      * rewrite upd_neq by exact NE. intuition congruence.
  - cbn [free_vecs]. change (somes (None :: c)) with (somes c) in *. apply IH; assumption.
Qed.

Section Inv.
Variables (m : mem) (b : book).
Hypothesis I : inv m b.

Lemma cleanup_spec : forall l x, lays m l = Some x ->
  exists f, cleanup_layout m l = Some (set_vecs m f) /\ forall v, f v = true <-> b_pads b v <> None /\ b_pads b v <> Some l.
Proof.
  intros l x E. unfold cleanup_layout. rewrite E.
  destruct (free_spec (l_cache x) (vecs m) (i_nd _ _ I l x E)) as [f [E1 E2]].
  - intros v H. apply (i_vec _ _ I). assert (b_pads b v = Some l) by (apply (i_pad _ _ I); eauto). congruence.
  - rewrite E1. exists f. split; [reflexivity|]. intros v. rewrite E2, (i_vec _ _ I v).
    assert (b_pads b v = Some l <-> In v (somes (l_cache x))).
    { rewrite (i_pad _ _ I). split; [intros [y [H1 H2]]; congruence | intros H; eauto]. }
    tauto.
Qed.

Lemma delete_layout_spec : forall l, lays m l <> None ->
  exists f, delete_layout m l = Some (mkMem f (upd (lays m) l None) (mods m) (tpcs m) (next m)) /\
    forall v, f v = true <-> b_pads b v <> None /\ b_pads b v <> Some l.
Proof.
  intros l N. destruct (lays m l) as [x|] eqn:E; [|congruence]. destruct (cleanup_spec l x E) as [f [E1 E2]].
  exists f. unfold delete_layout. rewrite E1. split; [reflexivity | exact E2].
Qed.

Lemma mod_layout : forall x y, mods m x = Some y -> b_lay b (m_lay y) = Some (Some x) /\ lays m (m_lay y) <> None.
Proof.
  intros x y E. assert (H : b_lay b (m_lay y) = Some (Some x)) by (apply (i_own _ _ I); eauto). split; [exact H|].
  apply (i_lay _ _ I). congruence.
Qed.

Lemma lay_of_is : forall x y l, mods m x = Some y -> lay_of (is x) b l = is (m_lay y) l.
Proof.
  intros x y l E. unfold lay_of. destruct (mod_layout x y E) as [O _]. destruct (Z.eq_dec l (m_lay y)) as [->|N].
  - rewrite O, !is_refl. reflexivity.
  - rewrite (is_neq (m_lay y)) by exact N. destruct (b_lay b l) as [[z|]|] eqn:Q; try reflexivity.
    apply is_neq. intros ->. apply (i_own _ _ I) in Q. destruct Q as [y' [Q1 Q2]]. congruence.
Qed.
End Inv.

(** the book is read pointwise *)
Lemma inv_ext : forall m b b', inv m b -> (forall v, b_pads b' v = b_pads b v) -> (forall v, b_lay b' v = b_lay b v) ->
  (forall v, b_mod b' v = b_mod b v) -> (forall v, b_tpc b' v = b_tpc b v) -> inv m b'.
Proof.
  intros m b b' I E1 E2 E3 E4. destruct I. constructor; intros; rewrite ?E1, ?E2, ?E3, ?E4; eauto.
Qed.

Ltac pw a c := destruct (Z.eq_dec a c) as [?|?]; [subst; rewrite ?upd_eq, ?put_eq, ?is_refl in * | rewrite ?upd_neq, ?put_neq, ?is_neq in * by assumption].

(** a layout of the user dies *)
Lemma del_layout_inv : forall m b l f, inv m b -> b_lay b l = Some None ->
  (forall v, f v = true <-> b_pads b v <> None /\ b_pads b v <> Some l) ->
  inv (mkMem f (upd (lays m) l None) (mods m) (tpcs m) (next m))
      (mkBook (drop_pads (is l) (b_pads b)) (put (b_lay b) l None) (b_mod b) (b_tpc b)).
Proof.
  intros m b l f I O F. constructor; cbn [vecs lays mods tpcs next b_pads b_lay b_mod b_tpc].
  - intros v. rewrite F. unfold drop_pads. destruct (b_pads b v) as [k|]; [|tauto]. pw k l; intuition congruence.
  - intros v k. unfold drop_pads. pw k l.
    + split; [|intros [x [H _]]; discriminate]. destruct (b_pads b v) as [j|]; [|discriminate].
      destruct (is l j) eqn:Q; [discriminate|]. intros [= ->]. rewrite is_refl in Q. discriminate.
    + rewrite <- (i_pad _ _ I). destruct (b_pads b v) as [j|]; [|tauto]. pw j l; [split; congruence | tauto].
  - intros k x. pw k l; [discriminate|]. apply (i_nd _ _ I).
  - intros k. pw k l; [tauto|]. apply (i_lay _ _ I).
  - intros k x. rewrite <- (i_own _ _ I). pw k l; [|tauto]. rewrite O. split; discriminate.
  - apply (i_mod _ _ I).
  - apply (i_in _ _ I).
  - apply (i_ndm _ _ I).
  - apply (i_tpc _ _ I).
  - intros a L. destruct (i_next _ _ I a L) as [H1 [H2 [H3 H4]]]. repeat split; auto.
    + destruct (f a) eqn:Q; [|reflexivity]. apply F in Q. assert (vecs m a = true) by (apply (i_vec _ _ I); tauto). congruence.
    + pw a l; auto.
Qed.

(** a module of the user dies *)
Lemma del_module_inv : forall m b x, inv m b -> b_mod b x = Some None ->
  exists m', delete_module m x = Some m' /\ inv m' (booked b (CDelModule x) ODone).
Proof.
  intros m b x I O. assert (LV : mods m x <> None) by (apply (i_mod _ _ I); congruence).
  destruct (mods m x) as [y|] eqn:EY; [|congruence]. clear LV.
  destruct (mod_layout m b I x y EY) as [OL LL]. set (l := m_lay y) in *.
  destruct (delete_layout_spec m b I l LL) as [f [E F]].
  unfold delete_module. rewrite EY. fold l. rewrite E. eexists. split; [reflexivity|].
  unfold set_mod. cbn [vecs lays mods tpcs next booked].
  apply (inv_ext _ (mkBook (drop_pads (is l) (b_pads b)) (put (b_lay b) l None) (put (b_mod b) x None) (b_tpc b)));
    cbn [b_pads b_lay b_mod b_tpc]; try reflexivity.
  2:{ intros v. unfold drop_pads. destruct (b_pads b v) as [k|]; [|reflexivity]. rewrite (lay_of_is m b I x y k EY). reflexivity. }
  2:{ intros v. unfold without. rewrite (lay_of_is m b I x y v EY). fold l. unfold is, put. destruct (Z.eq_dec v l); reflexivity. }
  constructor; cbn [vecs lays mods tpcs next b_pads b_lay b_mod b_tpc].
  - intros v. rewrite F. unfold drop_pads. destruct (b_pads b v) as [k|]; [|tauto]. pw k l; intuition congruence.
  - intros v k. unfold drop_pads. pw k l.
    + split; [|intros [? [H _]]; discriminate]. destruct (b_pads b v) as [j|]; [|discriminate].
      destruct (is l j) eqn:Q; [discriminate|]. intros [= ->]. rewrite is_refl in Q. discriminate.
    + rewrite <- (i_pad _ _ I). destruct (b_pads b v) as [j|]; [|tauto]. pw j l; [split; congruence | tauto].
  - intros k z. pw k l; [discriminate|]. apply (i_nd _ _ I).
  - intros k. pw k l; [tauto|]. apply (i_lay _ _ I).
  - intros k z. pw z x.
    + split; [|intros [? [H _]]; discriminate]. pw k l; [discriminate|]. intros H. apply (i_own _ _ I) in H.
      destruct H as [y' [H1 H2]]. unfold l in *. congruence.
    + rewrite <- (i_own _ _ I). pw k l; [|tauto]. rewrite OL. split; congruence.
  - intros z. pw z x; [tauto|]. apply (i_mod _ _ I).
  - intros z t. rewrite <- (i_in _ _ I). pw z x; [|tauto]. rewrite O. split; discriminate.
  - apply (i_ndm _ _ I).
  - apply (i_tpc _ _ I).
  - intros a L. destruct (i_next _ _ I a L) as [H1 [H2 [H3 H4]]]. repeat split; auto.
    + destruct (f a) eqn:Q; [|reflexivity]. apply F in Q. assert (vecs m a = true) by (apply (i_vec _ _ I); tauto). congruence.
    + pw a l; auto.
    + pw a x; auto.
Qed.

Definition memb (l : list Z) (x : Z) : bool := existsb (Z.eqb x) l.
Lemma memb_in : forall l x, memb l x = true <-> In x l.
Proof.
  intros l x. unfold memb. rewrite existsb_exists. split.
  - intros [y [H1 H2]]. apply Z.eqb_eq in H2. congruence.
  - intros H. exists x. split; [exact H | apply Z.eqb_refl].
Qed.

Definition book_after (l : list Z) (b : book) : book :=
  mkBook (drop_pads (lay_of (memb l) b) (b_pads b)) (without (lay_of (memb l) b) (b_lay b)) (without (memb l) (b_mod b)) (b_tpc b).

Lemma lay_of_cons : forall a l b k, lay_of (memb (a :: l)) b k = (lay_of (is a) b k || lay_of (memb l) b k)%bool.
Proof.
  intros a l b k. unfold lay_of. destruct (b_lay b k) as [[z|]|]; try reflexivity. unfold memb. cbn [existsb]. unfold is.
  destruct (Z.eq_dec z a) as [->|NE]; [rewrite Z.eqb_refl; reflexivity|]. apply Z.eqb_neq in NE. rewrite NE. reflexivity.
Qed.

Lemma del_modules_inv : forall l m b, inv m b -> NoDup l -> (forall x, In x l -> b_mod b x = Some None) ->
  exists m', delete_modules m l = Some m' /\ inv m' (book_after l b).
Proof.
  induction l as [|a l IH]; intros m b I N H.
  - exists m. split; [reflexivity|]. apply (inv_ext m b); auto; unfold book_after; cbn [b_pads b_lay b_mod b_tpc].
    + intros v. unfold drop_pads, lay_of. destruct (b_pads b v) as [k|]; [|reflexivity]. destruct (b_lay b k) as [[z|]|]; reflexivity.
    + intros v. unfold without, lay_of. destruct (b_lay b v) as [[z|]|]; reflexivity.
  - inversion N as [|? ? NI N2]; subst.
    destruct (del_module_inv m b a I (H a (or_introl eq_refl))) as [m1 [E1 I1]].
    destruct (IH m1 _ I1 N2) as [m' [E2 I2]].
    + intros x HX. cbn [booked b_mod]. rewrite put_neq; [apply H; right; exact HX | intros ->; contradiction].
    + exists m'. cbn [delete_modules]. rewrite E1. split; [exact E2|].
      apply (inv_ext _ _ _ I2); unfold book_after; cbn [booked b_pads b_lay b_mod b_tpc]; auto.
      * intros v. unfold drop_pads. destruct (b_pads b v) as [k|]; [|reflexivity]. rewrite lay_of_cons.
        destruct (lay_of (is a) b k) eqn:Q; [reflexivity|]. unfold lay_of at 2. cbn [b_lay]. unfold without. rewrite Q. reflexivity.
      * intros v. unfold without at 1. rewrite lay_of_cons. unfold without at 1. unfold lay_of at 3. cbn [b_lay]. unfold without.
        destruct (lay_of (is a) b v) eqn:Q; [reflexivity|]. reflexivity.
      * intros v. unfold without, put, memb. cbn [existsb]. fold (memb l v). destruct (Z.eq_dec v a) as [->|NE].
        { rewrite Z.eqb_refl. cbn. destruct (memb l a); reflexivity. }
        apply Z.eqb_neq in NE. rewrite NE. reflexivity.
Qed.

Lemma del_modules_set : forall l m t x, delete_modules (set_tpc m t x) l = option_map (fun m' => set_tpc m' t x) (delete_modules m l).
Proof.
  induction l as [|a l IH]; intros m t x; [reflexivity|]. cbn [delete_modules].
  assert (E : delete_module (set_tpc m t x) a = option_map (fun m' => set_tpc m' t x) (delete_module m a)).
  { unfold delete_module, delete_layout, cleanup_layout, set_tpc. cbn [mods lays vecs tpcs next].
    destruct (mods m a) as [y|]; [|reflexivity]. destruct (lays m (m_lay y)) as [z|]; [|reflexivity].
    destruct (free_vecs (l_cache z) (vecs m)); reflexivity. }
  rewrite E. destruct (delete_module m a); cbn [option_map]; [apply IH | reflexivity].
Qed.

(** a TPC dies *)
Lemma del_tpc_inv : forall m b t y, inv m b -> tpcs m t = Some y ->
  exists m', delete_modules m (t_mods y) = Some m' /\ inv (set_tpc m' t None) (booked b (CDelTpc t) ODone).
Proof.
  intros m b t y I E. destruct (i_ndm _ _ I t y E) as [ND _].
  set (b1 := mkBook (b_pads b) (b_lay b) (fun x => if mod_of t b x then Some None else b_mod b x) (put (b_tpc b) t false)).
  assert (MO : forall x, mod_of t b x = true <-> In x (t_mods y)).
  { intros x. unfold mod_of. split.
    - destruct (b_mod b x) as [[u|]|] eqn:Q; try discriminate. intros H. apply is_true in H. subst u.
      apply (i_in _ _ I) in Q. destruct Q as [y' [Q1 Q2]]. congruence.
    - intros H. assert (Q : b_mod b x = Some (Some t)) by (apply (i_in _ _ I); eauto). rewrite Q. apply is_refl. }
  assert (MO2 : forall x, mod_of t b x = memb (t_mods y) x).
  { intros x. destruct (memb (t_mods y) x) eqn:Q.
    - apply MO. apply memb_in. exact Q.
    - destruct (mod_of t b x) eqn:Q2; [|reflexivity]. apply MO in Q2. apply memb_in in Q2. congruence. }
  assert (I1 : inv (set_tpc m t None) b1).
  { destruct I. constructor; unfold set_tpc, b1; cbn [vecs lays mods tpcs next b_pads b_lay b_mod b_tpc]; auto.
    - intros x. rewrite i_mod0. destruct (mod_of t b x) eqn:Q; [|tauto]. unfold mod_of in Q.
      destruct (b_mod b x); [|discriminate]. split; congruence.
    - intros x u. destruct (mod_of t b x) eqn:Q.
      + split; [discriminate|]. pw u t; [intros [? [H _]]; discriminate|]. intros H. apply i_in0 in H.
        unfold mod_of in Q. rewrite H in Q. apply is_true in Q. congruence.
      + rewrite i_in0. pw u t; [|tauto]. split; [|intros [? [H _]]; discriminate]. intros H.
        apply i_in0 in H. unfold mod_of in Q. rewrite H, is_refl in Q. discriminate.
    - intros u z. pw u t; [discriminate|]. apply i_ndm0.
    - intros u. pw u t; [split; congruence|]. apply i_tpc0.
    - intros a L. destruct (i_next0 a L) as [H1 [H2 [H3 H4]]]. repeat split; auto. pw a t; auto. }
  destruct (del_modules_inv (t_mods y) (set_tpc m t None) b1 I1 ND) as [m1 [E1 I2]].
  - intros x H. unfold b1. cbn [b_mod]. apply MO in H. rewrite H. reflexivity.
  - rewrite del_modules_set in E1. destruct (delete_modules m (t_mods y)) as [m'|]; [|discriminate]. cbn [option_map] in E1.
    exists m'. split; [reflexivity|]. injection E1 as E1. rewrite E1.
    apply (inv_ext _ _ _ I2); unfold book_after, b1; cbn [booked b_pads b_lay b_mod b_tpc]; auto.
    + intros v. unfold drop_pads, lay_of. cbn [b_lay]. destruct (b_pads b v) as [k|]; [|reflexivity].
      destruct (b_lay b k) as [[z|]|]; try reflexivity. rewrite MO2. reflexivity.
    + intros v. unfold without, lay_of. cbn [b_lay]. destruct (b_lay b v) as [[z|]|]; try reflexivity. rewrite MO2. reflexivity.
    + intros v. unfold without. rewrite MO2. destruct (memb (t_mods y) v); reflexivity.
Qed.
