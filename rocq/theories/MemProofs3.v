(** Lists of pads that stay, and what happens outside the rules *)
From Coq Require Import ZArith List Bool Lia.
From Verif Require Import MemModel MemSpec MemProofs MemProofs2.
Import ListNotations.
Open Scope Z_scope.

Lemma throw_same : forall m b c m', inv m b -> allowed b c -> step m c = MThrow m' -> m' = m.
Proof.
  intros m b c m' I A E. destruct c as [k n|l n|l row|l|l r|l|id l ty|x|x y|x|ty|t [x|]|t l|t]; cbn [step] in E.
  - discriminate.
  - destruct (lays m l) as [z|]; [|discriminate]. destruct (l_kind z); congruence.
  - destruct (lays m l) as [z|]; [|discriminate]. destruct (entry z row) as [[v|]|]; discriminate.
  - destruct (lays m l); discriminate.
  - destruct (lays m l) as [z|]; [|discriminate]. destruct (lays m r) as [w|]; [|discriminate].
    destruct (negb _); [congruence|]. destruct (cleanup_layout m l); discriminate.
  - destruct (delete_layout m l); discriminate.
  - destruct (lays m l); discriminate.
  - destruct (mods m x) as [y|]; [|discriminate]. destruct (lays m (m_lay y)); discriminate.
  - destruct (mods m x) as [z|]; [|discriminate]. destruct (mods m y) as [w|]; [|discriminate].
    destruct (delete_layout m (m_lay z)) as [m1|]; [|discriminate]. destruct (lays m1 (m_lay w)); discriminate.
  - destruct (delete_module m x); discriminate.
  - discriminate.
  - unfold add_module in E. destruct (tpcs m t); [|discriminate]. destruct (mods m x); [|discriminate].
    destruct (negb _); [congruence|]. destruct (existsb _ _); congruence.
  - destruct (tpcs m t); congruence.
  - (* setPadLayout: the new module is always accepted *)
    destruct (tpcs m t) as [y|] eqn:ET; [|discriminate]. destruct (lays m l); [|discriminate].
    destruct (t_mods y) eqn:EM; [|congruence]. exfalso.
    unfold add_module in E. cbn [tpcs mods set_mod bump] in E. rewrite ET, upd_eq in E. cbn [m_type m_id] in E.
    rewrite Z.eqb_refl in E. cbn [negb] in E. destruct (i_ndm _ _ I _ _ ET) as [_ Q]. rewrite EM in Q.
    destruct (t_ids y); [|discriminate]. discriminate.
  - destruct (tpcs m t) as [y|]; [|discriminate]. destruct (delete_modules m (t_mods y)); discriminate.
Qed.

Definition kept (m m' : mem) (l : Z) : Prop := lays m' l = lays m l \/ lays m' l = None.

Lemma del_layout_kept : forall m k m' l, delete_layout m k = Some m' -> kept m m' l.
Proof.
  intros m k m' l E. unfold delete_layout, cleanup_layout in E. destruct (lays m k); [|discriminate].
  destruct (free_vecs _ _); [|discriminate]. injection E as <-. unfold kept. cbn [set_lay set_vecs lays].
  destruct (Z.eq_dec l k) as [->|N]; [rewrite upd_eq; auto | rewrite upd_neq by exact N; auto].
Qed.
Lemma del_module_kept : forall m x m' l, delete_module m x = Some m' -> kept m m' l.
Proof.
  intros m x m' l E. unfold delete_module in E. destruct (mods m x) as [y|]; [|discriminate].
  destruct (delete_layout m (m_lay y)) as [m1|] eqn:E1; [|discriminate]. injection E as <-. exact (del_layout_kept _ _ _ l E1).
Qed.
Lemma del_modules_kept : forall xs m m' l, delete_modules m xs = Some m' -> kept m m' l.
Proof.
  induction xs as [|x xs IH]; intros m m' l E.
  - injection E as <-. left. reflexivity.
  - cbn [delete_modules] in E. destruct (delete_module m x) as [m1|] eqn:E1; [|discriminate].
    destruct (del_module_kept m x m1 l E1) as [K|K]; destruct (IH m1 m' l E) as [K2|K2]; unfold kept; rewrite K2, ?K; auto.
Qed.

Lemma entry_add : forall x n row v, entry x row = Some (Some v) -> entry (add_rows x n) row = Some (Some v).
Proof.
  intros x n row v E. unfold entry in *. destruct (row <? 0); [discriminate|]. cbn [add_rows l_cache].
  rewrite nth_error_app1; [exact E|]. apply nth_error_Some. congruence.
Qed.
Lemma nth_set : forall (c : list (option Z)) i j v w, nth_error c i = Some (Some v) -> nth_error c j = Some None ->
  nth_error (firstn j c ++ Some w :: skipn (S j) c) i = Some (Some v).
Proof.
  induction c as [|a c IH]; intros i j v w E1 E2; [destruct i; discriminate|].
  destruct j as [|j].
  - cbn in E2. injection E2 as ->. destruct i as [|i]; [discriminate|]. exact E1.
  - destruct i as [|i]; [exact E1|]. cbn [firstn skipn app nth_error] in *. apply IH; assumption.
Qed.
Lemma entry_set : forall x row row' v w, entry x row = Some (Some v) -> entry x row' = Some None ->
  entry (set_entry x row' w) row = Some (Some v).
Proof.
  intros x row row' v w E E'. unfold entry in *. destruct (row <? 0); [discriminate|]. destruct (row' <? 0); [discriminate|].
  cbn [set_entry l_cache]. apply nth_set; assumption.
Qed.
Lemma entry_in : forall x row v, entry x row = Some (Some v) -> In v (somes (l_cache x)).
Proof. intros x row v E. apply in_somes. unfold entry in E. destruct (row <? 0); [discriminate|]. apply (nth_error_In _ _ E). Qed.

Lemma pads_stay : forall m b c m' r l row v x, inv m b -> allowed b c -> step m c = MOk m' r ->
  lays m l = Some x -> entry x row = Some (Some v) -> b_pads (booked b c r) v = Some l ->
  exists x', lays m' l = Some x' /\ entry x' row = Some (Some v).
Proof.
  intros m b c m' r l row v x I A E EL EN BP.
  assert (I' : inv m' (booked b c r)) by (assert (H := step_inv m b c I A); rewrite E in H; exact H).
  assert (LV : lays m' l <> None) by (apply (i_pad _ _ I') in BP; destruct BP as [q [BP _]]; congruence).
  assert (FR : l <> next m) by (intros ->; destruct (i_next _ _ I (next m) (Z.le_refl _)) as [_ [Q _]]; congruence).
  assert (KEPT : kept m m' l -> exists x', lays m' l = Some x' /\ entry x' row = Some (Some v)).
  { intros [K|K]; [rewrite K; eauto | congruence]. }
  destruct c as [k n|k n|k row'|k|k s|k|id k ty|y|y z|y|ty|t [y|]|t k|t]; cbn [step] in E.
  - injection E as <- <-. apply KEPT. left. cbn [bump set_lay lays]. apply upd_neq. exact FR.
  - destruct (lays m k) as [q|] eqn:EQ; [|discriminate].
    assert (E2 : m' = set_lay m k (Some (add_rows q n))) by (destruct (l_kind q); congruence). subst m'. cbn [set_lay lays] in *.
    destruct (Z.eq_dec l k) as [->|N]; [|rewrite upd_neq by exact N; eauto]. rewrite upd_eq. eexists. split; [reflexivity|].
    apply entry_add. congruence.
  - destruct (lays m k) as [q|] eqn:EQ; [|discriminate]. destruct (entry q row') as [[w|]|] eqn:EW; injection E as <- <-; eauto.
    cbn [bump set_vecs set_lay lays]. destruct (Z.eq_dec l k) as [->|N]; [|rewrite upd_neq by exact N; eauto]. rewrite upd_eq.
    eexists. split; [reflexivity|]. apply entry_set; congruence.
  - destruct (lays m k) as [q|]; [|discriminate]. injection E as <- <-. apply KEPT. left. cbn [bump set_lay lays]. apply upd_neq. exact FR.
  - destruct (lays m k) as [q|] eqn:EQ; [|discriminate]. destruct (lays m s) as [q'|]; [|discriminate].
    destruct (negb _); [discriminate|]. destruct (cleanup_layout m k) as [m1|] eqn:EC; [|discriminate]. injection E as <- <-.
    unfold cleanup_layout in EC. rewrite EQ in EC. destruct (free_vecs _ _); [|discriminate]. injection EC as <-.
    cbn [set_lay set_vecs lays]. destruct (Z.eq_dec l k) as [->|N]; [|rewrite upd_neq by exact N; eauto].
    exfalso. cbn [booked b_pads] in BP. unfold drop_pads in BP. destruct (b_pads b v) as [j|]; [|discriminate].
    destruct (is k j) eqn:Q; [discriminate|]. injection BP as ->. rewrite is_refl in Q. discriminate.
  - destruct (delete_layout m k) as [m1|] eqn:E1; [|discriminate]. injection E as <- <-. apply KEPT. exact (del_layout_kept _ _ _ l E1).
  - destruct (lays m k); [|discriminate]. injection E as <- <-. apply KEPT. left. reflexivity.
  - destruct (mods m y) as [q|]; [|discriminate]. destruct (lays m (m_lay q)); [|discriminate]. injection E as <- <-.
    apply KEPT. left. cbn [bump set_lay set_mod lays]. apply upd_neq. exact FR.
  - destruct (mods m y) as [q|]; [|discriminate]. destruct (mods m z) as [q'|]; [|discriminate].
    destruct (delete_layout m (m_lay q)) as [m1|] eqn:E1; [|discriminate]. destruct (lays m1 (m_lay q')); [|discriminate].
    injection E as <- <-. apply KEPT. destruct (del_layout_kept _ _ _ l E1) as [K|K]; unfold kept; cbn [bump set_mod set_lay lays].
    + left. rewrite <- K. apply upd_neq. unfold delete_layout, cleanup_layout in E1. destruct (lays m (m_lay q)); [|discriminate].
      destruct (free_vecs _ _); [|discriminate]. injection E1 as <-. exact FR.
    + right. rewrite <- K. apply upd_neq. unfold delete_layout, cleanup_layout in E1. destruct (lays m (m_lay q)); [|discriminate].
      destruct (free_vecs _ _); [|discriminate]. injection E1 as <-. exact FR.
  - destruct (delete_module m y) as [m1|] eqn:E1; [|discriminate]. injection E as <- <-. apply KEPT. exact (del_module_kept _ _ _ l E1).
  - injection E as <- <-. apply KEPT. left. reflexivity.
  - unfold add_module in E. destruct (tpcs m t); [|discriminate]. destruct (mods m y); [|discriminate].
    destruct (negb _); [discriminate|]. destruct (existsb _ _); [discriminate|]. injection E as <- <-. apply KEPT. left. reflexivity.
  - destruct (tpcs m t); discriminate.
  - destruct (tpcs m t) as [q|]; [|discriminate]. destruct (lays m k); [|discriminate]. destruct (t_mods q); [|discriminate].
    destruct (add_module _ t (next m)) as [m1 r1|m1|] eqn:EA; try discriminate. injection E as <- <-.
    unfold add_module in EA. destruct (tpcs _ t); [|discriminate]. destruct (mods _ (next m)); [|discriminate].
    destruct (negb _); [discriminate|]. destruct (existsb _ _); [discriminate|]. injection EA as <- <-. apply KEPT. left. reflexivity.
  - destruct (tpcs m t) as [q|]; [|discriminate]. destruct (delete_modules m (t_mods q)) as [m1|] eqn:E1; [|discriminate].
    injection E as <- <-. apply KEPT. exact (del_modules_kept _ _ _ l E1).
Qed.

(** outside the rules *)
Lemma self_assign_ub : forall m b x, inv m b -> b_mod b x <> None -> step m (CAssignModule x x) = MUB.
Proof.
  intros m b x I N. apply (i_mod _ _ I) in N. cbn [step]. destruct (mods m x) as [a|] eqn:E; [|reflexivity].
  destruct (mod_layout m b I x a E) as [_ L]. destruct (delete_layout_spec m b I (m_lay a) L) as [f [-> _]]. cbn [lays].
  rewrite upd_eq. reflexivity.
Qed.

Lemma shared_layout_ub : forall m b x l id ty, inv m b -> b_mod b x = Some None -> b_lay b l = Some (Some x) ->
  exists m1 m2, step m (CNewModule id l ty) = MOk m1 (OAddr (next m)) /\ step m1 (CDelModule x) = MOk m2 ODone /\
    step m2 (CDelModule (next m)) = MUB.
Proof.
  intros m b x l id ty I O OL. assert (LL : lays m l <> None) by (apply (i_lay _ _ I); congruence).
  cbn [step]. destruct (lays m l) as [z|] eqn:EL; [|congruence]. clear LL.
  assert (LM : mods m x <> None) by (apply (i_mod _ _ I); congruence).
  destruct (mods m x) as [y|] eqn:EX; [|congruence].
  assert (EY : m_lay y = l).
  { destruct (mod_layout m b I x y EX) as [Q _]. apply (i_own _ _ I) in OL. destruct OL as [y' [Q1 Q2]]. congruence. }
  assert (XN : x <> next m) by (intros ->; destruct (i_next _ _ I (next m) (Z.le_refl _)) as [_ [_ [Q _]]]; congruence).
  destruct (cleanup_spec m b I l z EL) as [f [E F]].
  unfold cleanup_layout in E. rewrite EL in E. destruct (free_vecs (l_cache z) (vecs m)) as [g|] eqn:EF; [|discriminate].
  eexists. eexists. split; [reflexivity|].
  unfold delete_module, bump, set_mod. cbn [mods lays vecs tpcs next]. rewrite (upd_neq _ _ _ _ x XN), EX, EY.
  unfold delete_layout, cleanup_layout. cbn [lays vecs]. rewrite EL, EF. split; [reflexivity|].
  cbn [set_lay set_vecs lays mods vecs]. rewrite (upd_neq _ _ _ _ (next m)) by auto. rewrite upd_eq. cbn [m_lay]. rewrite upd_eq. reflexivity.
Qed.

Lemma dead_module_ub : forall xs m, (exists x, In x xs /\ mods m x = None) -> delete_modules m xs = None.
Proof.
  induction xs as [|y xs IH]; intros m [x [H E]]; [destruct H|]. cbn [delete_modules].
  destruct (delete_module m y) as [m1|] eqn:E1; [|reflexivity].
  assert (KM : mods m1 = upd (mods m) y None).
  { unfold delete_module in E1. destruct (mods m y) as [z|]; [|discriminate]. unfold delete_layout, cleanup_layout in E1.
    destruct (lays m (m_lay z)) as [q|]; [|discriminate]. destruct (free_vecs _ _); [|discriminate]. injection E1 as <-. reflexivity. }
  destruct H as [->|H].
  - unfold delete_module in E1. rewrite E in E1. discriminate.
  - apply IH. exists x. split; [exact H|]. rewrite KM. destruct (Z.eq_dec x y) as [->|N]; [apply upd_eq | rewrite upd_neq by exact N; exact E].
Qed.

Lemma two_tpcs_ub : forall m b x t u m1, inv m b -> b_mod b x = Some (Some t) -> u <> t ->
  step m (CAddModule u (Some x)) = MOk m1 ODone ->
  exists m2, step m1 (CDelTpc t) = MOk m2 ODone /\ step m2 (CDelTpc u) = MUB.
Proof.
  intros m b x t u m1 I O NE E. cbn [step] in E. unfold add_module in E.
  destruct (tpcs m u) as [yu|] eqn:EU; [|discriminate]. destruct (mods m x) as [z|]; [|discriminate].
  destruct (negb _); [discriminate|]. destruct (existsb _ _); [discriminate|]. injection E as <-.
  apply (i_in _ _ I) in O. destruct O as [y [ET IX]].
  destruct (del_tpc_inv m b t y I ET) as [m' [ED I']].
  cbn [step]. cbn [set_tpc tpcs]. rewrite upd_neq by auto. rewrite ET, del_modules_set, ED. cbn [option_map].
  eexists. split; [reflexivity|]. cbn [set_tpc tpcs]. rewrite upd_neq by auto. rewrite upd_eq. cbn [t_mods].
  rewrite dead_module_ub; [reflexivity|]. exists x. split; [apply in_or_app; right; left; reflexivity|].
  cbn [set_tpc mods]. destruct (mods m' x) as [q|] eqn:Q; [|reflexivity]. exfalso.
  assert (H : mods (set_tpc m' t None) x <> None) by (cbn [set_tpc mods]; congruence). apply (i_mod _ _ I') in H. apply H.
  cbn [booked b_mod]. unfold without, mod_of. rewrite (proj2 (i_in _ _ I x t)) by eauto. rewrite is_refl. reflexivity.
Qed.

Lemma again_refused : forall m t x m1, step m (CAddModule t (Some x)) = MOk m1 ODone -> step m1 (CAddModule t (Some x)) = MThrow m1.
Proof.
  intros m t x m1 E. cbn [step] in *. unfold add_module in *. destruct (tpcs m t) as [y|] eqn:ET; [|discriminate].
  destruct (mods m x) as [z|] eqn:EX; [|discriminate]. destruct (negb _) eqn:EN; [discriminate|]. destruct (existsb _ _); [discriminate|].
  injection E as <-. cbn [set_tpc tpcs mods]. rewrite upd_eq, EX. cbn [t_type t_ids]. rewrite EN.
  rewrite existsb_app. cbn [existsb]. rewrite Z.eqb_refl, orb_true_r. reflexivity.
Qed.
