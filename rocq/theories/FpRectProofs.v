(** The rectangular layout in double arithmetic: what the data members hold after any calls. *)
From Coq Require Import ZArith List String Bool Reals Lra Lia.
From Flocq Require Import Core Relative Plus_error.
From Verif Require Import Base RBase ListExtra BitProofs NumModel NumSpec NumProofs FpModel FpSpec FpProofs
  RectModel RectSpec RectProofs RectProofs2 RectProofs3 FpRectModel FpRectSpec.
Import ListNotations.
Open Scope R_scope.

Definition dwidth x0 x1 s : R := to_double (to_double (x1 - s_right s) - to_double (x0 + s_left s)).
Definition drow x0 x1 b s : Row :=
  mkRow (s_n s) (s_padW s) (s_padH s) (s_h s) (s_left s) (s_right s) (fadd b (fdiv (s_h s) 2))
        (to_double (dwidth x0 x1 s / IZR (s_n s))).
Fixpoint drows x0 x1 b (E : list srow) : list Row :=
  match E with [] => [] | s :: t => drow x0 x1 b s :: drows x0 x1 (fadd b (s_h s)) t end.

Definition good_d x0 x1 (s : srow) : Prop :=
  (0 < s_n s < 2147483648)%Z /\ 0 <= s_padW s /\ 0 <= s_padH s /\ 0 <= s_h s /\ 0 <= s_left s /\ 0 <= s_right s /\
  is_double (s_padW s) /\ is_double (s_padH s) /\ is_double (s_h s) /\ is_double (s_left s) /\ is_double (s_right s) /\
  width_fits_d x0 x1 s /\ height_fits s.

Record drep x0 x1 y0 (E : list srow) (rp : bool) (l : rect) : Prop := {
  dr_e0 : ext0 l = x0; dr_e1 : ext1 l = x1; dr_e2 : ext2 l = y0;
  dr_e3 : ext3 l = top_edge y0 E;
  dr_rows : _rows l = drows x0 x1 y0 E;
  dr_good : Forall (good_d x0 x1) E;
  dr_rpt : (0 <? _repeatRows l)%Z = rp }.

Lemma edge_app1 : forall E F y0 i, (i <= List.length E)%nat -> edge y0 (E ++ F) i = edge y0 E i.
Proof. induction E; intros F y0 i H; destruct i; cbn in *; auto; try lia. apply IHE. lia. Qed.
Lemma edge_app2 : forall E F y0 i, edge y0 (E ++ F) (List.length E + i) = edge (top_edge y0 E) F i.
Proof. induction E; intros F y0 i; cbn; [reflexivity|]. rewrite IHE. reflexivity. Qed.
Lemma top_app : forall E F y0, top_edge y0 (E ++ F) = top_edge (top_edge y0 E) F.
Proof. intros. unfold top_edge at 1. rewrite app_length. apply edge_app2. Qed.
Lemma edge_S : forall E y0 i s, nth_error E i = Some s -> edge y0 E (S i) = fadd (edge y0 E i) (s_h s).
Proof.
  induction E; intros y0 i s H; destruct i; cbn [nth_error] in H; try discriminate.
  - inversion H; subst. destruct E; reflexivity.
  - cbn [edge]. apply (IHE (to_double (y0 + s_h a)) i s H).
Qed.
Lemma edge_0 : forall E y0, edge y0 E 0 = y0.
Proof. intros [|]; reflexivity. Qed.
Lemma drows_app : forall x0 x1 E b F, drows x0 x1 b (E ++ F) = (drows x0 x1 b E ++ drows x0 x1 (top_edge b E) F)%list.
Proof. induction E; intros; cbn; [reflexivity|]. now rewrite IHE. Qed.
Lemma drows_length : forall x0 x1 E b, List.length (drows x0 x1 b E) = List.length E.
Proof. induction E; simpl; intros; auto. Qed.
Lemma drows_nth : forall x0 x1 E b i, nth_error (drows x0 x1 b E) i = option_map (drow x0 x1 (edge b E i)) (nth_error E i).
Proof. induction E; intros b i; destruct i; cbn [drows nth_error option_map edge]; auto. Qed.

Lemma drep_new : forall x0 x1 y0, drep x0 x1 y0 [] false (new_rect x0 x1 y0).
Proof. intros. constructor; simpl; auto. Qed.

Lemma dpush_rep : forall x0 x1 y0 s n E rp l row,
  drep x0 x1 y0 E rp l -> good_d x0 x1 s ->
  NPad row = s_n s -> PadWidth row = s_padW s -> PadHeight row = s_padH s -> Height row = s_h s ->
  LeftOffset row = s_left s -> RightOffset row = s_right s -> WidthPerPad row = to_double (dwidth x0 x1 s / IZR (s_n s)) ->
  drep x0 x1 y0 (E ++ repeat s n) rp (dpush_rows n row l).
Proof.
  intros x0 x1 y0 s n. induction n; intros E rp l row HR HG H1 H2 H3 H4 H5 H6 H7.
  - simpl. rewrite app_nil_r. exact HR.
  - simpl dpush_rows. replace (E ++ repeat s (S n))%list with ((E ++ [s]) ++ repeat s n)%list by (now rewrite <- app_assoc).
    apply IHn; simpl; auto.
    destruct HR as [He0 He1 He2 He3 Hrows Hgood Hrpt]. constructor; simpl; auto.
    + rewrite He3, top_app, H4. reflexivity.
    + rewrite Hrows, drows_app. simpl. f_equal. unfold drow. rewrite H1, H2, H3, H4, H5, H6, H7. now rewrite He3.
    + apply Forall_app; split; auto.
Qed.

Lemma daddRow_rep : forall x0 x1 y0 E rp l a,
  drep x0 x1 y0 E rp l -> legal_call (CAdd a) -> double_call (CAdd a) ->
  let r := daddRow l (a_nRow a) (a_nPad a) (a_padWidth a) (a_padHeight a) (a_rowHeight a) (a_left a) (a_right a) in
  (width_fits_d x0 x1 (srow_of a) /\ height_fits (srow_of a) /\
     exists l', r = SOk l' tt /\ drep x0 x1 y0 (E ++ repeat (srow_of a) (Z.to_nat (a_nRow a))) rp l') \/
  (~ (width_fits_d x0 x1 (srow_of a) /\ height_fits (srow_of a)) /\
     exists l' e, r = SThrow l' e /\ drep x0 x1 y0 E rp l').
Proof.
  intros x0 x1 y0 E rp l a HR HL HD r. subst r. unfold daddRow.
  destruct HL as (H1 & H2 & H3 & H4 & H5 & H6 & H7). destruct HD as (D1 & D2 & D3 & D4 & D5 & D6).
  replace (0 <? a_nRow a)%Z with true by (symmetry; now apply Z.ltb_lt).
  replace (0 <? a_nPad a)%Z with true by (symmetry; now apply Z.ltb_lt).
  rewrite (proj2 (Rltb_false _ 0) H3), (proj2 (Rltb_false _ 0) H4), (proj2 (Rltb_false _ 0) H5),
    (proj2 (Rltb_false _ 0) H6), (proj2 (Rltb_false _ 0) H7). cbn [negb andb].
  rewrite (dr_e0 _ _ _ _ _ _ HR), (dr_e1 _ _ _ _ _ _ HR).
  assert (HW : width_fits_d x0 x1 (srow_of a) <->
    fmul (IZR (a_nPad a)) (a_padWidth a) <= fsub (fsub x1 (a_right a)) (fadd x0 (a_left a))) by (unfold width_fits_d; simpl; reflexivity).
  rcase.
  { right. split; [rewrite HW; lra|eauto]. }
  rewrite asked_height_eq.
  assert (Hnn : 0 <= asked_height a).
  { unfold asked_height. destruct (Req_EM_T (a_rowHeight a) 0); lra. }
  assert (Hdd : is_double (asked_height a)).
  { unfold asked_height. destruct (Req_EM_T (a_rowHeight a) 0); auto. }
  rcase.
  { right. split; [unfold height_fits; simpl; lra|]. do 2 eexists; split; [reflexivity|]. destruct HR; constructor; simpl; auto. }
  left. split; [now apply HW|]. split; [unfold height_fits; simpl; lra|].
  eexists; split; [reflexivity|].
  assert (HG : good_d x0 x1 (srow_of a)).
  { unfold good_d; simpl; repeat split; auto; try (now apply HW). }
  match goal with |- context[dpush_rows ?n ?row ?l0] =>
    assert (HR' : drep x0 x1 y0 E rp l0) by (destruct HR; constructor; simpl; auto);
    pose proof (dpush_rep x0 x1 y0 (srow_of a) n _ _ l0 row HR' HG) as HP end.
  simpl in HP. specialize (HP eq_refl eq_refl eq_refl eq_refl eq_refl eq_refl eq_refl).
  destruct HP. constructor; simpl; auto.
Qed.

Lemma args_of_d : forall x0 x1 s, good_d x0 x1 s ->
  srow_of (args_of s) = s /\ legal_call (CAdd (args_of s)) /\ double_call (CAdd (args_of s)).
Proof.
  intros x0 x1 s (H1&H2&H3&H4&H5&H6&D1&D2&D3&D4&D5&H7&H8). split; [|split].
  - unfold srow_of, asked_height, args_of; simpl.
    unfold height_fits in H8. destruct s as [n pw ph hh lo ro]; simpl in *. destruct (Req_EM_T hh 0); auto. f_equal. lra.
  - cbn. repeat split; auto; lia.
  - cbn. repeat split; auto; lia.
Qed.

Lemma drepeat_inner_rep : forall x0 x1 y0 rp n j E0 E l,
  drep x0 x1 y0 E rp l -> (exists T, E = E0 ++ T)%list -> (j + n <= List.length E0)%nat ->
  exists l', drepeat_inner n j l = SOk l' tt /\ drep x0 x1 y0 (E ++ firstn n (skipn j E0)) rp l'.
Proof.
  intros x0 x1 y0 rp n. induction n; intros j E0 E l HR HT Hj.
  - simpl. rewrite app_nil_r. eauto.
  - destruct HT as [T HT]. simpl drepeat_inner.
    destruct (nth_error E0 j) as [s|] eqn:Es; [|apply nth_error_None in Es; lia].
    assert (EsE : nth_error E j = Some s).
    { subst E. rewrite nth_error_app1; auto. apply nth_error_Some; congruence. }
    assert (HGs : good_d x0 x1 s).
    { eapply Forall_forall; [apply (dr_good _ _ _ _ _ _ HR)|]. eapply nth_error_In; eauto. }
    rewrite (dr_rows _ _ _ _ _ _ HR), drows_nth, EsE. simpl option_map. cbn [drow NPad PadWidth PadHeight Height LeftOffset RightOffset].
    destruct (args_of_d _ _ _ HGs) as (A1 & A2 & A3).
    pose proof (daddRow_rep _ _ _ _ _ _ _ HR A2 A3) as HA. cbv zeta in HA. rewrite A1 in HA.
    change (daddRow l (a_nRow (args_of s)) _ _ _ _ _ _) with
      (daddRow l 1 (s_n s) (s_padW s) (s_padH s) (s_h s) (s_left s) (s_right s)) in HA.
    destruct HGs as (H1&H2&H3&H4&H5&H6&D1&D2&D3&D4&D5&H7&H8).
    destruct HA as [(_&_&l'&Hl&HR')|(Hn&_)]; [|tauto].
    rewrite Hl. simpl in HR'. change (Pos.to_nat 1) with 1%nat in HR'. simpl in HR'.
    destruct (IHn (S j) E0 _ l' HR') as [l'' [Hr HR'']].
    { exists (T ++ [s])%list. subst E. now rewrite app_assoc. }
    { lia. }
    exists l''. split; auto.
    replace (firstn (S n) (skipn j E0)) with (s :: firstn n (skipn (S j) E0)).
    + rewrite <- app_assoc in HR''. exact HR''.
    + clear -Es. revert E0 Es. induction j; intros E0 Es; destruct E0; simpl in *; try discriminate.
      * now inversion Es.
      * now apply IHj.
Qed.
Lemma drepeat_outer_rep : forall x0 x1 y0 rp m E0 E l,
  drep x0 x1 y0 E rp l -> (exists T, E = E0 ++ T)%list ->
  exists l', drepeat_outer m (List.length E0) l = SOk l' tt /\ drep x0 x1 y0 (E ++ List.concat (repeat E0 m)) rp l'.
Proof.
  intros x0 x1 y0 rp m. induction m; intros E0 E l HR HT.
  - simpl. rewrite app_nil_r. eauto.
  - simpl drepeat_outer. destruct (drepeat_inner_rep _ _ _ _ (List.length E0) 0 E0 E l HR HT) as [l' [Hl HR']]; [lia|].
    rewrite Hl. simpl skipn in HR'. rewrite firstn_all in HR'.
    destruct (IHm E0 _ l' HR') as [l'' [Hl' HR'']].
    { destruct HT as [T HT]. exists (T ++ E0)%list. subst E. now rewrite app_assoc. }
    exists l''. split; auto. simpl. now rewrite app_assoc.
Qed.
Lemma drepeatRows_rep : forall x0 x1 y0 E l count,
  drep x0 x1 y0 E false l -> (1 <= count < 2147483648)%Z ->
  exists l', drepeatRows l count = SOk l' tt /\ drep x0 x1 y0 (List.concat (repeat E (Z.to_nat count))) true l'.
Proof.
  intros x0 x1 y0 E l count HR Hc. unfold drepeatRows. rewrite (dr_rpt _ _ _ _ _ _ HR).
  assert (Hi : int32 count = count) by (apply int32_small; unfold int_ok; lia).
  match goal with |- context[drepeat_outer _ _ ?l0] => assert (HR1 : drep x0 x1 y0 E true l0) end.
  { destruct HR as [He0 He1 He2 He3 Hrows Hgood Hrpt]. constructor; simpl; auto. rewrite Hi. apply Z.ltb_lt. lia. }
  assert (HL : List.length (_rows l) = List.length E) by (rewrite (dr_rows _ _ _ _ _ _ HR); apply drows_length).
  simpl. rewrite HL. rewrite uint32_small by lia.
  destruct (drepeat_outer_rep _ _ _ _ (Z.to_nat (count - 1)) E E _ HR1) as [l' [Ho HR']].
  { exists []. now rewrite app_nil_r. }
  exists l'. split; [exact Ho|]. replace (Z.to_nat count) with (S (Z.to_nat (count - 1))) by lia. exact HR'.
Qed.

Lemma getPads_drep : forall x0 x1 y0 E rp l r, drep x0 x1 y0 E rp l ->
  exists l' v, getPadsInRow l r = SOk l' v /\ drep x0 x1 y0 E rp l'.
Proof.
  intros x0 x1 y0 E rp l r HR. unfold getPadsInRow.
  destruct (nthZ (_padIndices l) r) as [[v|]|] eqn:Ec; eauto.
  destruct (nthZ (_rows l) r) as [row|] eqn:Er; eauto.
  destruct (indices_from l r (Z.to_nat (NPad row)) 0) as [v|e|] eqn:Ei; eauto.
  - do 2 eexists; split; [reflexivity|]. destruct HR; constructor; auto.
  - exfalso. eapply indices_from_no_ub; eauto.
Qed.

Lemma do_call_drep : forall x0 x1 y0 E rp l c,
  drep x0 x1 y0 E rp l -> legal_call c -> double_call c ->
  exists l', do_call_d l c = Some l' /\
    drep x0 x1 y0 (fst (expect1_d x0 x1 (E, rp) c)) (snd (expect1_d x0 x1 (E, rp) c)) l'.
Proof.
  intros x0 x1 y0 E rp l c HR HL HD. destruct c as [a|n|r]; simpl.
  - pose proof (daddRow_rep _ _ _ _ _ _ _ HR HL HD) as HA. cbv zeta in HA.
    destruct HA as [(Hw&Hh&l'&Hl&HR')|(Hn&l'&e&Hl&HR')]; rewrite Hl; eexists; (split; [reflexivity|]);
      (destruct (width_fits_d_dec x0 x1 (srow_of a)); try tauto);
      (try (destruct (height_fits_dec (srow_of a)); try tauto)); simpl; auto.
  - destruct rp.
    + unfold drepeatRows. rewrite (dr_rpt _ _ _ _ _ _ HR). eexists; split; [reflexivity|]. auto.
    + simpl in HL. destruct (drepeatRows_rep _ _ _ _ _ n HR HL) as [l' [Hl HR']]. rewrite Hl. eauto.
  - destruct (getPads_drep _ _ _ _ _ _ r HR) as [l' [v [Hl HR']]]. rewrite Hl. eauto.
Qed.
Lemma do_calls_drep : forall x0 x1 y0 h E rp l,
  drep x0 x1 y0 E rp l -> Forall legal_call h -> Forall double_call h ->
  exists l', do_calls_d l h = Some l' /\
    drep x0 x1 y0 (fst (fold_left (expect1_d x0 x1) h (E, rp))) (snd (fold_left (expect1_d x0 x1) h (E, rp))) l'.
Proof.
  induction h; intros E rp l HR HL HD; cbn [do_calls_d fold_left].
  - eauto.
  - inversion HL; inversion HD; subst. destruct (do_call_drep _ _ _ _ _ _ _ HR H1 H5) as [l' [Hl HR']].
    rewrite Hl. specialize (IHh _ _ _ HR' H2 H6). rewrite <- surjective_pairing in IHh. exact IHh.
Qed.
Lemma built_drep : forall x0 x1 y0 h l, built_d x0 x1 y0 h l ->
  is_double x0 /\ is_double x1 /\ is_double y0 /\ exists rp, drep x0 x1 y0 (expected_rows_d x0 x1 h) rp l.
Proof.
  intros x0 x1 y0 h l (D0 & D1 & D2 & HL & HD & HB). repeat (split; [assumption|]).
  destruct (do_calls_drep x0 x1 y0 h [] false _ (drep_new x0 x1 y0) HL HD) as [l' [Hl HR]].
  rewrite HB in Hl. inversion Hl; subst. eauto.
Qed.
