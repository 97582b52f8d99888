(** Every call within the rules keeps the invariant *)
From Coq Require Import ZArith List Bool Lia.
From Verif Require Import MemModel MemSpec MemProofs.
Import ListNotations.
Open Scope Z_scope.

Ltac pw a c := destruct (Z.eq_dec a c) as [?|?]; [subst; rewrite ?upd_eq, ?put_eq, ?is_refl in * | rewrite ?upd_neq, ?put_neq, ?is_neq in * by assumption].
Ltac flds := cbn [vecs lays mods tpcs next b_pads b_lay b_mod b_tpc set_vecs set_lay set_mod set_tpc bump].

Lemma add_layout_inv : forall m b x, inv m b -> somes (l_cache x) = [] ->
  inv (bump (set_lay m (next m) (Some x))) (mkBook (b_pads b) (put (b_lay b) (next m) (Some None)) (b_mod b) (b_tpc b)).
Proof.
  intros m b x I S. destruct (i_next _ _ I (next m) (Z.le_refl _)) as [N1 [N2 [N3 N4]]].
  constructor; flds.
  - apply (i_vec _ _ I).
  - intros v l. rewrite (i_pad _ _ I). pw l (next m); [|tauto]. split.
    + intros [z [H _]]. congruence.
    + intros [z [H1 H2]]. injection H1 as <-. rewrite S in H2. destruct H2.
  - intros l z. pw l (next m); [|apply (i_nd _ _ I)]. intros [= <-]. rewrite S. constructor.
  - intros l. pw l (next m); [split; congruence | apply (i_lay _ _ I)].
  - intros l z. rewrite <- (i_own _ _ I). pw l (next m); [|tauto]. split; [discriminate|]. intros H.
    assert (lays m (next m) <> None) by (apply (i_lay _ _ I); congruence). congruence.
  - apply (i_mod _ _ I).
  - apply (i_in _ _ I).
  - apply (i_ndm _ _ I).
  - apply (i_tpc _ _ I).
  - intros a L. destruct (i_next _ _ I a) as [H1 [H2 [H3 H4]]]; [lia|]. repeat split; auto. rewrite upd_neq by lia. exact H2.
Qed.

Lemma new_module_inv : forall m b l id ty, inv m b -> b_lay b l = Some None ->
  inv (bump (set_mod m (next m) (Some (mkMod l id ty))))
      (mkBook (b_pads b) (put (b_lay b) l (Some (Some (next m)))) (put (b_mod b) (next m) (Some None)) (b_tpc b)).
Proof.
  intros m b l id ty I O. destruct (i_next _ _ I (next m) (Z.le_refl _)) as [N1 [N2 [N3 N4]]].
  constructor; flds.
  - apply (i_vec _ _ I).
  - apply (i_pad _ _ I).
  - apply (i_nd _ _ I).
  - intros k. rewrite (i_lay _ _ I). pw k l; [rewrite O; split; congruence | tauto].
  - intros k z. pw z (next m).
    + pw k l.
      * split; [intros _; eexists; split; [reflexivity|]; reflexivity | reflexivity].
      * split.
        { intros H. apply (i_own _ _ I) in H. destruct H as [y [H _]]. congruence. }
        intros [y [H1 H2]]. injection H1 as <-. cbn [m_lay] in H2. congruence.
    + rewrite <- (i_own _ _ I). pw k l; [|tauto]. rewrite O. split; congruence.
  - intros z. pw z (next m); [split; congruence | apply (i_mod _ _ I)].
  - intros z t. rewrite <- (i_in _ _ I). pw z (next m); [|tauto]. split; [discriminate|]. intros H.
    assert (mods m (next m) <> None) by (apply (i_mod _ _ I); congruence). congruence.
  - apply (i_ndm _ _ I).
  - apply (i_tpc _ _ I).
  - intros a L. destruct (i_next _ _ I a) as [H1 [H2 [H3 H4]]]; [lia|]. repeat split; auto. rewrite upd_neq by lia. exact H3.
Qed.

Lemma same_pads_inv : forall m b l x x', inv m b -> lays m l = Some x -> somes (l_cache x') = somes (l_cache x) ->
  inv (set_lay m l (Some x')) b.
Proof.
  intros m b l x x' I E S. constructor; flds.
  - apply (i_vec _ _ I).
  - intros v k. rewrite (i_pad _ _ I). pw k l; [|tauto].
    split; intros [z [H1 H2]]; eexists; (split; [eassumption || reflexivity|]); congruence.
  - intros k z. pw k l; [|apply (i_nd _ _ I)]. intros [= <-]. rewrite S. apply (i_nd _ _ I l x E).
  - intros k. rewrite <- (i_lay _ _ I). pw k l; [|tauto]. rewrite E. split; congruence.
  - apply (i_own _ _ I).
  - apply (i_mod _ _ I).
  - apply (i_in _ _ I).
  - apply (i_ndm _ _ I).
  - apply (i_tpc _ _ I).
  - intros a L. destruct (i_next _ _ I a L) as [H1 [H2 [H3 H4]]]. repeat split; auto. pw a l; congruence.
Qed.

Lemma somes_set : forall c i v, nth_error c i = Some None ->
  (forall w, In w (somes (firstn i c ++ Some v :: skipn (S i) c)) <-> w = v \/ In w (somes c)) /\
  (NoDup (somes c) -> ~ In v (somes c) -> NoDup (somes (firstn i c ++ Some v :: skipn (S i) c))).
Proof.
  intros c i v E. assert (S : somes c = somes (firstn i c) ++ somes (skipn (S i) c)).
  { apply nth_error_split in E. destruct E as [c1 [c2 [-> <-]]]. rewrite somes_app, firstn_app, Nat.sub_diag, firstn_all. cbn [firstn].
    rewrite app_nil_r. f_equal. replace (skipn (S (List.length c1)) (c1 ++ None :: c2)) with c2; [reflexivity|].
    clear. induction c1 as [|a c1 IH]; [reflexivity | exact IH]. }
  assert (S2 : somes (firstn i c ++ Some v :: skipn (Datatypes.S i) c) = somes (firstn i c) ++ v :: somes (skipn (Datatypes.S i) c)).
  { rewrite somes_app. reflexivity. }
  rewrite S2, S. split.
  - intros w. rewrite !in_app_iff. cbn [In]. intuition congruence.
  - intros ND NI. apply NoDup_Add with (a := v) (l := somes (firstn i c) ++ somes (skipn (Datatypes.S i) c)).
    + apply Add_app.
    + split; assumption.
Qed.

Lemma new_pads_inv : forall m b l x row, inv m b -> lays m l = Some x -> entry x row = Some None ->
  inv (bump (set_vecs (set_lay m l (Some (set_entry x row (next m)))) (upd (vecs m) (next m) true)))
      (mkBook (put (b_pads b) (next m) (Some l)) (b_lay b) (b_mod b) (b_tpc b)).
Proof.
  intros m b l x row I E EN. destruct (i_next _ _ I (next m) (Z.le_refl _)) as [N1 [N2 [N3 N4]]].
  assert (EC : nth_error (l_cache x) (Z.to_nat row) = Some None) by (unfold entry in EN; destruct (row <? 0); [discriminate | exact EN]).
  destruct (somes_set _ _ (next m) EC) as [SI SN].
  assert (PN : b_pads b (next m) = None).
  { destruct (b_pads b (next m)) eqn:Q; [|reflexivity]. assert (vecs m (next m) = true) by (apply (i_vec _ _ I); congruence). congruence. }
  constructor; flds.
  - intros v. pw v (next m); [split; congruence | apply (i_vec _ _ I)].
  - intros v k. pw k l.
    + pw v (next m).
      * split; [|reflexivity]. intros _. eexists. split; [reflexivity|]. apply SI. left. reflexivity.
      * rewrite (i_pad _ _ I). split.
        { intros [z [H1 H2]]. eexists. split; [reflexivity|]. apply SI. right. congruence. }
        intros [z [H1 H2]]. injection H1 as <-. apply SI in H2. destruct H2 as [H2|H2]; [contradiction|]. eauto.
    + rewrite <- (i_pad _ _ I). pw v (next m); [|tauto]. rewrite PN. split; congruence.
  - intros k z. pw k l; [|apply (i_nd _ _ I)]. intros [= <-]. apply SN; [apply (i_nd _ _ I l x E)|]. intros H.
    assert (b_pads b (next m) = Some l) by (apply (i_pad _ _ I); eauto). congruence.
  - intros k. rewrite <- (i_lay _ _ I). pw k l; [|tauto]. rewrite E. split; congruence.
  - apply (i_own _ _ I).
  - apply (i_mod _ _ I).
  - apply (i_in _ _ I).
  - apply (i_ndm _ _ I).
  - apply (i_tpc _ _ I).
  - intros a L. destruct (i_next _ _ I a) as [H1 [H2 [H3 H4]]]; [lia|]. repeat split; auto.
    + rewrite upd_neq by lia. exact H1.
    + pw a l; congruence.
Qed.

Lemma assign_layout_inv : forall m b l x x' f, inv m b -> lays m l = Some x -> somes (l_cache x') = [] ->
  (forall v, f v = true <-> b_pads b v <> None /\ b_pads b v <> Some l) ->
  inv (mkMem f (upd (lays m) l (Some x')) (mods m) (tpcs m) (next m))
      (mkBook (drop_pads (is l) (b_pads b)) (b_lay b) (b_mod b) (b_tpc b)).
Proof.
  intros m b l x x' f I E S F. constructor; flds.
  - intros v. rewrite F. unfold drop_pads. destruct (b_pads b v) as [k|]; [|tauto]. pw k l; intuition congruence.
  - intros v k. unfold drop_pads. pw k l.
    + split.
      * destruct (b_pads b v) as [j|]; [|discriminate]. destruct (is l j) eqn:Q; [discriminate|]. intros [= ->].
        rewrite is_refl in Q. discriminate.
      * intros [z [H1 H2]]. injection H1 as <-. rewrite S in H2. destruct H2.
    + rewrite <- (i_pad _ _ I). destruct (b_pads b v) as [j|]; [|tauto]. pw j l; [split; congruence | tauto].
  - intros k z. pw k l; [|apply (i_nd _ _ I)]. intros [= <-]. rewrite S. constructor.
  - intros k. rewrite <- (i_lay _ _ I). pw k l; [|tauto]. rewrite E. split; congruence.
  - apply (i_own _ _ I).
  - apply (i_mod _ _ I).
  - apply (i_in _ _ I).
  - apply (i_ndm _ _ I).
  - apply (i_tpc _ _ I).
  - intros a L. destruct (i_next _ _ I a L) as [H1 [H2 [H3 H4]]]. repeat split; auto.
    + destruct (f a) eqn:Q; [|reflexivity]. apply F in Q. assert (vecs m a = true) by (apply (i_vec _ _ I); tauto). congruence.
    + pw a l; congruence.
Qed.

Lemma add_module_inv : forall m b t x, inv m b -> b_tpc b t = true -> b_mod b x = Some None ->
  match add_module m t x with
  | MOk m' r => r = ODone /\ inv m' (mkBook (b_pads b) (b_lay b) (put (b_mod b) x (Some (Some t))) (b_tpc b))
  | MThrow m' => m' = m
  | MUB => False
  end.
Proof.
  intros m b t x I OT OM. unfold add_module.
  assert (LT : tpcs m t <> None) by (apply (i_tpc _ _ I); exact OT).
  assert (LM : mods m x <> None) by (apply (i_mod _ _ I); congruence).
  destruct (tpcs m t) as [y|] eqn:ET; [|congruence]. destruct (mods m x) as [z|] eqn:EM; [|congruence].
  destruct (negb _); [reflexivity|]. destruct (existsb _ _); [reflexivity|]. split; [reflexivity|].
  assert (NI : forall u y', tpcs m u = Some y' -> ~ In x (t_mods y')).
  { intros u y' H1 H2. assert (b_mod b x = Some (Some u)) by (apply (i_in _ _ I); eauto). congruence. }
  constructor; flds.
  - apply (i_vec _ _ I).
  - apply (i_pad _ _ I).
  - apply (i_nd _ _ I).
  - apply (i_lay _ _ I).
  - apply (i_own _ _ I).
  - intros k. rewrite (i_mod _ _ I). pw k x; [rewrite OM; split; congruence | tauto].
  - intros k u. pw u t.
    + pw k x.
      * split; [|reflexivity]. intros _. eexists. split; [reflexivity|]. cbn [t_mods]. apply in_or_app. right. left. reflexivity.
      * rewrite (i_in _ _ I). split.
        { intros [y' [H1 H2]]. eexists. split; [reflexivity|]. cbn [t_mods]. apply in_or_app. left. congruence. }
        intros [y' [H1 H2]]. injection H1 as <-. cbn [t_mods] in H2. apply in_app_iff in H2. destruct H2 as [H2|[H2|[]]]; [eauto | congruence].
    + rewrite <- (i_in _ _ I). pw k x; [|tauto]. rewrite OM. split; congruence.
  - intros u y'. pw u t; [|apply (i_ndm _ _ I)]. intros [= <-]. cbn [t_mods t_ids]. destruct (i_ndm _ _ I t y ET) as [H1 H2].
    split.
    + apply NoDup_Add with (a := x) (l := t_mods y ++ []); [apply Add_app|]. rewrite app_nil_r. split; [exact H1 | apply (NI t y ET)].
    + rewrite !app_length, H2. reflexivity.
  - intros u. rewrite <- (i_tpc _ _ I). pw u t; [|tauto]. rewrite ET. split; congruence.
  - intros a L. destruct (i_next _ _ I a L) as [H1 [H2 [H3 H4]]]. repeat split; auto. pw a t; congruence.
Qed.

Lemma assign_module_inv : forall m b x y a c f z, inv m b -> mods m x = Some a -> mods m y = Some c -> x <> y ->
  (forall v, f v = true <-> b_pads b v <> None /\ b_pads b v <> Some (m_lay a)) -> somes (l_cache z) = [] ->
  inv (mkMem f (upd (upd (lays m) (m_lay a) None) (next m) (Some z)) (upd (mods m) x (Some (mkMod (next m) (m_id c) (m_type c))))
             (tpcs m) (next m + 1))
      (booked b (CAssignModule x y) (OAddr (next m))).
Proof.
  intros m b x y a c f z I EA EC NE F S. destruct (i_next _ _ I (next m) (Z.le_refl _)) as [N1 [N2 [N3 N4]]].
  destruct (mod_layout m b I x a EA) as [OL LL]. set (l := m_lay a) in *. set (n := next m) in *.
  assert (NL : n <> l) by (intros <-; congruence).
  assert (BN : b_lay b n = None).
  { destruct (b_lay b n) eqn:Q; [|reflexivity]. assert (lays m n <> None) by (apply (i_lay _ _ I); congruence). congruence. }
  apply (inv_ext _ (mkBook (drop_pads (is l) (b_pads b)) (put (put (b_lay b) l None) n (Some (Some x))) (b_mod b) (b_tpc b)));
    cbn [booked b_pads b_lay b_mod b_tpc]; try reflexivity.
  2:{ intros v. unfold drop_pads. destruct (b_pads b v) as [k|]; [|reflexivity]. rewrite (lay_of_is m b I x a k EA). reflexivity. }
  2:{ intros v. unfold put at 1 2. destruct (Z.eq_dec v n); [reflexivity|]. unfold without. rewrite (lay_of_is m b I x a v EA). fold l.
      unfold is, put. destruct (Z.eq_dec v l); reflexivity. }
  constructor; flds.
  - intros v. rewrite F. unfold drop_pads. destruct (b_pads b v) as [k|]; [|tauto]. pw k l; intuition congruence.
  - intros v k. unfold drop_pads. pw k n.
    + split.
      * destruct (b_pads b v) as [j|] eqn:Q; [|discriminate]. destruct (is l j) eqn:Q2; [discriminate|]. intros [= ->].
        apply (i_pad _ _ I) in Q. destruct Q as [w [Q _]]. congruence.
      * intros [w [H1 H2]]. injection H1 as <-. rewrite S in H2. destruct H2.
    + pw k l.
      * split; [|intros [w [H _]]; discriminate]. destruct (b_pads b v) as [j|]; [|discriminate].
        destruct (is l j) eqn:Q2; [discriminate|]. intros [= ->]. rewrite is_refl in Q2. discriminate.
      * rewrite <- (i_pad _ _ I). destruct (b_pads b v) as [j|]; [|tauto]. pw j l; [split; congruence | tauto].
  - intros k w. pw k n; [intros [= <-]; rewrite S; constructor|]. pw k l; [discriminate|]. apply (i_nd _ _ I).
  - intros k. pw k n; [split; congruence|]. pw k l; [tauto|]. apply (i_lay _ _ I).
  - intros k w. pw w x.
    + pw k n; [split; [intros _; eexists; split; reflexivity | reflexivity]|]. split.
      * pw k l; [discriminate|]. intros H. apply (i_own _ _ I) in H. destruct H as [a' [H1 H2]]. unfold l in *. congruence.
      * intros [a' [H1 H2]]. injection H1 as <-. cbn [m_lay] in H2. congruence.
    + rewrite <- (i_own _ _ I). pw k n; [rewrite BN; split; congruence|]. pw k l; [|tauto]. rewrite OL. split; congruence.
  - intros w. rewrite <- (i_mod _ _ I). pw w x; [|tauto]. rewrite EA. split; congruence.
  - apply (i_in _ _ I).
  - apply (i_ndm _ _ I).
  - apply (i_tpc _ _ I).
  - intros k L. unfold n in *. destruct (i_next _ _ I k) as [H1 [H2 [H3 H4]]]; [lia|]. repeat split; auto.
    + destruct (f k) eqn:Q; [|reflexivity]. apply F in Q. assert (vecs m k = true) by (apply (i_vec _ _ I); tauto). congruence.
    + rewrite upd_neq by lia. pw k l; auto.
    + pw k x; congruence.
Qed.

Lemma somes_copy : forall x, somes (l_cache (copy_of x)) = [].
Proof. intros x. cbn [copy_of l_cache]. apply somes_none. Qed.

Lemma step_inv : forall m b c, inv m b -> allowed b c ->
  match step m c with MOk m' r => inv m' (booked b c r) | MThrow m' => inv m' b | MUB => False end.
Proof.
  intros m b c I A. destruct c as [k n|l n|l row|l|l r|l|id l ty|x|x y|x|ty|t [x|]|t l|t]; cbn [allowed] in A; cbn [step].
  - cbn [booked]. apply add_layout_inv; [exact I|]. destruct k; cbn [new_layout l_cache]; [reflexivity | reflexivity | apply somes_none].
  - apply (i_lay _ _ I) in A. destruct (lays m l) as [x|] eqn:E; [|congruence].
    assert (H : inv (set_lay m l (Some (add_rows x n))) b).
    { apply (same_pads_inv m b l x); auto. cbn [add_rows l_cache]. rewrite somes_app, somes_none, app_nil_r. reflexivity. }
    destruct (l_kind x); try exact I; exact H.
  - apply (i_lay _ _ I) in A. destruct (lays m l) as [x|] eqn:E; [|congruence].
    destruct (entry x row) as [[v|]|] eqn:EN; cbn [booked].
    + apply (inv_ext m b); auto. cbn [b_pads]. intros w. destruct (Z.eq_dec w v) as [->|NE]; [|rewrite put_neq by exact NE; reflexivity].
      rewrite put_eq. symmetry. apply (i_pad _ _ I). exists x. split; [exact E|]. apply in_somes.
      unfold entry in EN. destruct (row <? 0); [discriminate|]. apply (nth_error_In _ _ EN).
    + apply new_pads_inv; assumption.
    + exact I.
  - apply (i_lay _ _ I) in A. destruct (lays m l) as [x|] eqn:E; [|congruence]. cbn [booked].
    apply add_layout_inv; [exact I | apply somes_copy].
  - destruct A as [A1 A2]. apply (i_lay _ _ I) in A1, A2. destruct (lays m l) as [x|] eqn:E; [|congruence].
    destruct (lays m r) as [y|] eqn:E2; [|congruence]. destruct (negb _); [exact I|].
    destruct (cleanup_spec m b I l x E) as [f [-> F]]. cbn [booked].
    apply (assign_layout_inv m b l x (copy_of y) f I E (somes_copy y) F).
  - destruct (delete_layout_spec m b I l) as [f [-> F]]; [apply (i_lay _ _ I); congruence|]. cbn [booked].
    apply del_layout_inv; assumption.
  - assert (L : lays m l <> None) by (apply (i_lay _ _ I); congruence). destruct (lays m l) as [x|] eqn:E; [|congruence].
    cbn [booked]. apply new_module_inv; assumption.
  - apply (i_mod _ _ I) in A. destruct (mods m x) as [y|] eqn:E; [|congruence].
    destruct (mod_layout m b I x y E) as [_ L]. destruct (lays m (m_lay y)) as [z|] eqn:E2; [|congruence]. cbn [booked].
    assert (I1 := add_layout_inv m b (copy_of z) I (somes_copy z)).
    assert (I2 := new_module_inv _ _ (next m) (m_id y) (m_type y) I1 (put_eq _ _ _ _)).
    apply (inv_ext _ _ _ I2); cbn [b_pads b_lay b_mod b_tpc]; auto.
    intros v. destruct (Z.eq_dec v (next m)) as [->|NE]; [rewrite !put_eq; reflexivity | rewrite !put_neq by exact NE; reflexivity].
  - destruct A as [A1 [A2 NE]]. apply (i_mod _ _ I) in A1, A2. destruct (mods m x) as [a|] eqn:EA; [|congruence].
    destruct (mods m y) as [c|] eqn:EC; [|congruence]. destruct (mod_layout m b I x a EA) as [OA LA].
    destruct (mod_layout m b I y c EC) as [OC LC]. destruct (delete_layout_spec m b I (m_lay a) LA) as [f [-> F]].
    cbn [lays next]. assert (ND : m_lay c <> m_lay a) by (intros Q; rewrite Q in OC; congruence). rewrite upd_neq by exact ND.
    destruct (lays m (m_lay c)) as [z|] eqn:EZ; [|congruence]. unfold bump, set_mod, set_lay. cbn [vecs lays mods tpcs next].
    apply (assign_module_inv m b x y a c f (copy_of z) I EA EC NE F (somes_copy z)).
  - destruct (del_module_inv m b x I A) as [m' [-> H]]. exact H.
  - cbn [booked]. destruct (i_next _ _ I (next m) (Z.le_refl _)) as [N1 [N2 [N3 N4]]]. constructor; flds.
    + apply (i_vec _ _ I).
    + apply (i_pad _ _ I).
    + apply (i_nd _ _ I).
    + apply (i_lay _ _ I).
    + apply (i_own _ _ I).
    + apply (i_mod _ _ I).
    + intros x t. rewrite (i_in _ _ I). pw t (next m); [|tauto]. split; [intros [y [H _]]; congruence|].
      intros [y [H1 H2]]. injection H1 as <-. destruct H2.
    + intros t y. pw t (next m); [|apply (i_ndm _ _ I)]. intros [= <-]. split; [constructor | reflexivity].
    + intros t. pw t (next m); [split; congruence | apply (i_tpc _ _ I)].
    + intros a L. destruct (i_next _ _ I a) as [H1 [H2 [H3 H4]]]; [lia|]. repeat split; auto. rewrite upd_neq by lia. exact H4.
  - destruct A as [A1 A2]. assert (H := add_module_inv m b t x I A1 A2). destruct (add_module m t x) as [m' r|m'|]; [|subst; exact I|exact H].
    cbn [booked]. apply H.
  - apply (i_tpc _ _ I) in A. destruct (tpcs m t); [exact I | congruence].
  - destruct A as [A1 A2]. assert (LT : tpcs m t <> None) by (apply (i_tpc _ _ I); exact A1).
    assert (LL : lays m l <> None) by (apply (i_lay _ _ I); congruence).
    destruct (tpcs m t) as [y|] eqn:ET; [|congruence]. destruct (lays m l) as [z|] eqn:EL; [|congruence].
    destruct (t_mods y) as [|q w] eqn:EM; [|exact I].
    assert (I1 := new_module_inv m b l 0 (t_type y) I A2).
    assert (H := add_module_inv _ _ t (next m) I1 A1 (put_eq _ _ _ _)).
    assert (NT : exists m' r, add_module (bump (set_mod m (next m) (Some (mkMod l 0 (t_type y))))) t (next m) = MOk m' r).
    { unfold add_module. flds. rewrite ET, upd_eq. cbn [m_type m_id]. rewrite Z.eqb_refl. cbn [negb].
      destruct (i_ndm _ _ I t y ET) as [_ Q]. rewrite EM in Q. destruct (t_ids y); [|discriminate]. cbn [existsb]. eauto. }
    destruct NT as [m' [r E]]. rewrite E in *. destruct H as [_ H]. cbn [booked].
    apply (inv_ext _ _ _ H); cbn [b_pads b_lay b_mod b_tpc]; auto.
    intros v. destruct (Z.eq_dec v (next m)) as [->|NE]; [rewrite !put_eq; reflexivity | rewrite !put_neq by exact NE; reflexivity].
  - apply (i_tpc _ _ I) in A. destruct (tpcs m t) as [y|] eqn:E; [|congruence].
    destruct (del_tpc_inv m b t y I E) as [m' [-> H]]. exact H.
Qed.

Lemma reach_inv : forall m b, reach m b -> inv m b.
Proof.
  intros m b R. induction R as [|m b c m' r R IH A E|m b c m' R IH A E]; [apply inv_start| |].
  - assert (H := step_inv m b c IH A). rewrite E in H. exact H.
  - assert (H := step_inv m b c IH A). rewrite E in H. exact H.
Qed.
