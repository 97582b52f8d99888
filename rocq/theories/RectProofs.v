(** Proofs about RectangularPadRowLayout. *)
From Coq Require Import ZArith List String Bool Reals Lra Lia.
From Flocq Require Import Core.Raux Core.Generic_fmt.
From Verif Require Import Base RBase ListExtra BitProofs RectModel RectSpec.
Import ListNotations.
Open Scope R_scope.

Definition row_at x0 x1 b s : Row :=
  mkRow (s_n s) (s_padW s) (s_padH s) (s_h s) (s_left s) (s_right s) (b + s_h s / 2) (pitch x0 x1 s).
Fixpoint rows_of x0 x1 b (E : list srow) : list Row :=
  match E with [] => [] | s :: t => row_at x0 x1 b s :: rows_of x0 x1 (b + s_h s) t end.

Definition good x0 x1 (s : srow) : Prop :=
  (0 < s_n s)%Z /\ 0 <= s_padW s /\ 0 <= s_padH s /\ 0 <= s_h s /\ 0 <= s_left s /\ 0 <= s_right s /\
  width_fits x0 x1 s /\ height_fits s.

Definition raw (r p : Z) : Z := int32 (Z.lor (Z.shiftl r 16) (Z.land 65535 p)).
Fixpoint raws (r : Z) (k : nat) (i : Z) : list Z :=
  match k with O => [] | S k' => raw r i :: raws r k' (i + 1) end.

Record rep x0 x1 y0 (E : list srow) (extra : Z) (rp : bool) (l : rect) : Prop := {
  rep_e0 : ext0 l = x0; rep_e1 : ext1 l = x1; rep_e2 : ext2 l = y0;
  rep_e3 : ext3 l = y0 + heights E;
  rep_rows : _rows l = rows_of x0 x1 y0 E;
  rep_good : Forall (good x0 x1) E;
  rep_nrow : _nRow l = 0%Z;
  rep_npad : _nPad l = (total_pads E + extra)%Z;
  rep_rpt : (0 <? _repeatRows l)%Z = rp;
  rep_clen : List.length (_padIndices l) = List.length E;
  rep_cache : forall i v, nth_error (_padIndices l) i = Some (Some v) ->
      exists s, nth_error E i = Some s /\ v = raws (Z.of_nat i) (Z.to_nat (s_n s)) 0 }.

Lemma heights_app : forall a b, heights (a ++ b) = heights a + heights b.
Proof. induction a; simpl; intros; [lra|]. rewrite IHa. lra. Qed.
Lemma total_app : forall a b, total_pads (a ++ b) = (total_pads a + total_pads b)%Z.
Proof. induction a; simpl; intros; [lia|]. rewrite IHa. lia. Qed.
Lemma rows_of_app : forall x0 x1 E b F,
  rows_of x0 x1 b (E ++ F) = (rows_of x0 x1 b E ++ rows_of x0 x1 (b + heights E) F)%list.
Proof.
  induction E; simpl; intros.
  - now rewrite Rplus_0_r.
  - rewrite IHE. now rewrite Rplus_assoc.
Qed.
Lemma rows_of_length : forall x0 x1 E b, List.length (rows_of x0 x1 b E) = List.length E.
Proof. induction E; simpl; intros; auto. Qed.
Lemma rows_of_nth : forall x0 x1 E b i,
  nth_error (rows_of x0 x1 b E) i =
  option_map (row_at x0 x1 (bottom b E i)) (nth_error E i).
Proof.
  induction E; intros b i; destruct i; simpl; auto.
  - unfold bottom. simpl. now rewrite Rplus_0_r.
  - rewrite IHE. unfold bottom. simpl. now rewrite Rplus_assoc.
Qed.

Lemma rep_new : forall x0 x1 y0, rep x0 x1 y0 [] 0 false (new_rect x0 x1 y0).
Proof.
  intros. constructor; simpl; auto; try lra.
  intros i v H. destruct i; discriminate.
Qed.

Lemma push_rows_rep : forall x0 x1 y0 s n E extra rp l row,
  rep x0 x1 y0 E extra rp l -> good x0 x1 s ->
  NPad row = s_n s -> PadWidth row = s_padW s -> PadHeight row = s_padH s -> Height row = s_h s ->
  LeftOffset row = s_left s -> RightOffset row = s_right s -> WidthPerPad row = pitch x0 x1 s ->
  rep x0 x1 y0 (E ++ repeat s n) (extra - Z.of_nat n * s_n s) rp (push_rows n row l).
Proof.
  intros x0 x1 y0 s n. induction n; intros E extra rp l row HR HG H1 H2 H3 H4 H5 H6 H7.
  - simpl. rewrite app_nil_r. replace (extra - 0)%Z with extra by lia. exact HR.
  - simpl push_rows. replace (E ++ repeat s (S n))%list with ((E ++ [s]) ++ repeat s n)%list
      by (now rewrite <- app_assoc).
    replace (extra - Z.of_nat (S n) * s_n s)%Z with ((extra - s_n s) - Z.of_nat n * s_n s)%Z by lia.
    apply IHn; simpl; auto.
    destruct HR as [He0 He1 He2 He3 Hrows Hgood Hnrow Hnpad Hrpt Hclen Hcache]. constructor; simpl; auto.
    + rewrite He3, heights_app. simpl. lra.
    + rewrite Hrows, rows_of_app. simpl. f_equal. unfold row_at. rewrite H1, H2, H3, H4, H5, H6, H7.
      now rewrite He3.
    + apply Forall_app; split; auto.
    + rewrite total_app. simpl. lia.
    + rewrite !app_length. simpl. lia.
    + intros i v Hi. destruct (Nat.lt_ge_cases i (List.length (_padIndices l))).
      * rewrite nth_error_app1 in Hi by auto. destruct (Hcache _ _ Hi) as [s' [Ha Hb]].
        exists s'. split; auto. rewrite nth_error_app1; auto.
        apply nth_error_Some. congruence.
      * rewrite nth_error_app2 in Hi by lia. destruct (i - _)%nat as [|k]; [discriminate|].
        destruct k; discriminate.
Qed.

Lemma rep_extra : forall x0 x1 y0 E ex rp l d,
  rep x0 x1 y0 E ex rp l ->
  rep x0 x1 y0 E (ex + d) rp
    (mkRect (_nRow l) (_nPad l + d) (_repeatRows l) (_rows l) (ext0 l) (ext1 l) (ext2 l) (ext3 l)
            (_padIndices l) (_nRows l)).
Proof. intros. destruct H. constructor; simpl; auto. lia. Qed.

Lemma asked_height_eq : forall a,
  (if Reqb (a_rowHeight a) 0 then a_padHeight a else a_rowHeight a) = asked_height a.
Proof. intros. unfold Reqb, asked_height. destruct (Req_EM_T (a_rowHeight a) 0); auto. Qed.

Lemma addRow_rep : forall x0 x1 y0 E ex rp l a,
  rep x0 x1 y0 E ex rp l -> legal_call (CAdd a) ->
  let r := addRow l (a_nRow a) (a_nPad a) (a_padWidth a) (a_padHeight a) (a_rowHeight a) (a_left a)
                  (a_right a) in
  (width_fits x0 x1 (srow_of a) /\ height_fits (srow_of a) /\
     exists l', r = SOk l' tt /\
       rep x0 x1 y0 (E ++ repeat (srow_of a) (Z.to_nat (a_nRow a))) ex rp l') \/
  (width_fits x0 x1 (srow_of a) /\ ~ height_fits (srow_of a) /\
     exists l' e, r = SThrow l' e /\ rep x0 x1 y0 E (ex + a_nRow a * a_nPad a) rp l') \/
  (~ width_fits x0 x1 (srow_of a) /\ exists e, r = SThrow l e).
Proof.
  intros x0 x1 y0 E ex rp l a HR HL r. subst r. unfold addRow.
  destruct HL as (H1 & H2 & H3 & H4 & H5 & H6 & H7).
  replace (0 <? a_nRow a)%Z with true by (symmetry; now apply Z.ltb_lt).
  replace (0 <? a_nPad a)%Z with true by (symmetry; now apply Z.ltb_lt).
  rewrite (proj2 (Rltb_false _ 0) H3), (proj2 (Rltb_false _ 0) H4), (proj2 (Rltb_false _ 0) H5),
    (proj2 (Rltb_false _ 0) H6), (proj2 (Rltb_false _ 0) H7). cbn [negb andb].
  rewrite (rep_e0 _ _ _ _ _ _ _ HR), (rep_e1 _ _ _ _ _ _ _ HR).
  assert (HW : width_fits x0 x1 (srow_of a) <->
    IZR (a_nPad a) * a_padWidth a <= x1 - a_right a - (x0 + a_left a)) by (unfold width_fits; simpl; tauto).
  rcase.
  { right; right. split; [rewrite HW; lra|eauto]. }
  rewrite asked_height_eq.
  assert (Hnn : 0 <= asked_height a).
  { unfold asked_height. destruct (Req_EM_T (a_rowHeight a) 0); lra. }
  pose proof (rep_extra _ _ _ _ _ _ _ (a_nRow a * a_nPad a)%Z HR) as HR'.
  rewrite (rep_e0 _ _ _ _ _ _ _ HR), (rep_e1 _ _ _ _ _ _ _ HR) in HR'.
  rewrite <- (Z.abs_eq (a_nRow a)), <- (Z.abs_eq (a_nPad a)) in HR' by lia.
  rcase.
  { right; left. split; [now apply HW|]. split; [unfold height_fits; simpl; lra|].
    do 2 eexists; split; [reflexivity|]. 
    replace (ex + a_nRow a * a_nPad a)%Z with (ex + Z.abs (a_nRow a) * Z.abs (a_nPad a))%Z by lia.
    exact HR'. }
  left. split; [now apply HW|]. split; [unfold height_fits; simpl; lra|].
  eexists; split; [reflexivity|].
  assert (HG : good x0 x1 (srow_of a)).
  { unfold good; simpl; repeat split; auto; try (now apply HW). }
  match goal with |- context[push_rows ?n ?row ?l0] =>
    pose proof (push_rows_rep x0 x1 y0 (srow_of a) n _ _ _ l0 row HR' HG) as HP end.
  simpl in HP. specialize (HP eq_refl eq_refl eq_refl eq_refl eq_refl eq_refl eq_refl).
  rewrite !Z.abs_eq in HP by lia. rewrite Z2Nat.id in HP by lia.
  replace (ex + a_nRow a * a_nPad a - a_nRow a * a_nPad a)%Z with ex in HP by lia.
  rewrite !Z.abs_eq by lia.
  destruct HP. constructor; simpl; auto.
Qed.

(** ** repeatRows *)
Definition args_of (s : srow) : add_args :=
  mkAdd 1 (s_n s) (s_padW s) (s_padH s) (s_h s) (s_left s) (s_right s).

Lemma args_of_srow : forall x0 x1 s, good x0 x1 s -> srow_of (args_of s) = s.
Proof.
  intros x0 x1 s (H1&H2&H3&H4&H5&H6&H7&H8). unfold srow_of, asked_height, args_of; simpl.
  unfold height_fits in H8. destruct s as [n pw ph hh lo ro]; simpl in *. destruct (Req_EM_T hh 0); auto.
  f_equal. lra.
Qed.

Lemma repeat_inner_rep : forall x0 x1 y0 ex rp n j E0 E l,
  rep x0 x1 y0 E ex rp l -> (exists T, E = E0 ++ T)%list -> (j + n <= List.length E0)%nat ->
  exists l', repeat_inner n j l = SOk l' tt /\
    rep x0 x1 y0 (E ++ firstn n (skipn j E0)) ex rp l'.
Proof.
  intros x0 x1 y0 ex rp n. induction n; intros j E0 E l HR HT Hj.
  - simpl. rewrite app_nil_r. eauto.
  - destruct HT as [T HT]. simpl repeat_inner.
    destruct (nth_error E0 j) as [s|] eqn:Es; [|apply nth_error_None in Es; lia].
    assert (EsE : nth_error E j = Some s).
    { subst E. rewrite nth_error_app1; auto. apply nth_error_Some; congruence. }
    assert (HGs : good x0 x1 s).
    { eapply Forall_forall; [apply (rep_good _ _ _ _ _ _ _ HR)|]. eapply nth_error_In; eauto. }
    rewrite (rep_rows _ _ _ _ _ _ _ HR), rows_of_nth, EsE. simpl option_map. cbn [row_at NPad PadWidth PadHeight Height LeftOffset RightOffset].
    assert (HLg : legal_call (CAdd (args_of s))).
    { destruct HGs as (H1&H2&H3&H4&H5&H6&H7&H8). simpl. repeat split; auto; lia. }
    pose proof (addRow_rep _ _ _ _ _ _ _ _ HR HLg) as HA. cbv zeta in HA.
    rewrite (args_of_srow _ _ _ HGs) in HA.
    change (addRow l (a_nRow (args_of s)) _ _ _ _ _ _) with
      (addRow l 1 (s_n s) (s_padW s) (s_padH s) (s_h s) (s_left s) (s_right s)) in HA.
    destruct HGs as (H1&H2&H3&H4&H5&H6&H7&H8).
    destruct HA as [(_&_&l'&Hl&HR')|[(_&Hn&_)|(Hn&_)]]; [|tauto|tauto].
    rewrite Hl. simpl in HR'. change (Pos.to_nat 1) with 1%nat in HR'. simpl in HR'.
    destruct (IHn (S j) E0 _ l' HR') as [l'' [Hr HR'']].
    { exists (T ++ [s])%list. subst E. now rewrite app_assoc. }
    { lia. }
    exists l''. split; auto.
    replace (firstn (S n) (skipn j E0)) with (s :: firstn n (skipn (S j) E0)).
    + rewrite <- app_assoc in HR''. exact HR''.
    + clear -Es. revert E0 Es. induction j; intros E0 Es; destruct E0; simpl in *; try discriminate.
      * now inversion Es.
      * now apply IHj.
Qed.

Lemma repeat_outer_rep : forall x0 x1 y0 ex rp m E0 E l,
  rep x0 x1 y0 E ex rp l -> (exists T, E = E0 ++ T)%list ->
  exists l', repeat_outer m (List.length E0) l = SOk l' tt /\
    rep x0 x1 y0 (E ++ List.concat (repeat E0 m)) ex rp l'.
Proof.
  intros x0 x1 y0 ex rp m. induction m; intros E0 E l HR HT.
  - simpl. rewrite app_nil_r. eauto.
  - simpl repeat_outer. destruct (repeat_inner_rep _ _ _ _ _ (List.length E0) 0 E0 E l HR HT) as [l' [Hl HR']];
      [lia|].
    rewrite Hl. simpl skipn in HR'. rewrite firstn_all in HR'.
    destruct (IHm E0 _ l' HR') as [l'' [Hl' HR'']].
    { destruct HT as [T HT]. exists (T ++ E0)%list. subst E. now rewrite app_assoc. }
    exists l''. split; auto. simpl. now rewrite app_assoc.
Qed.

Lemma repeatRows_rep : forall x0 x1 y0 E ex l count,
  rep x0 x1 y0 E ex false l -> (0 <= count < 2147483648)%Z ->
  exists l', repeatRows l count = SOk l' tt /\
    rep x0 x1 y0 (E ++ List.concat (repeat E (Z.to_nat (uint32 (count - 1))))) ex (0 <? count)%Z l' /\
    getRepeatRowCount l' = count.
Proof.
  intros x0 x1 y0 E ex l count HR Hc. unfold repeatRows. rewrite (rep_rpt _ _ _ _ _ _ _ HR).
  assert (Hi : int32 count = count) by (apply int32_small; unfold int_ok; lia).
  assert (HR1 : rep x0 x1 y0 E ex (0 <? count)%Z
    (mkRect (_nRow l) (_nPad l) (int32 count) (_rows l) (ext0 l) (ext1 l) (ext2 l) (ext3 l)
            (_padIndices l) (_nRows l))).
  { destruct HR as [He0 He1 He2 He3 Hrows Hgood Hnrow Hnpad Hrpt Hclen Hcache]. constructor; simpl; auto. now rewrite Hi. }
  assert (HL : List.length (_rows l) = List.length E).
  { rewrite (rep_rows _ _ _ _ _ _ _ HR). apply rows_of_length. }
  simpl. rewrite HL.
  destruct (repeat_outer_rep _ _ _ _ _ (Z.to_nat (uint32 (count - 1))) E E _ HR1) as [l' [Ho HR']].
  { exists []. now rewrite app_nil_r. }
  exists l'. split; [exact Ho|]. split; [exact HR'|].
  (* the count is kept by every addRow *)
  assert (HK : forall n row k, _repeatRows (push_rows n row k) = _repeatRows k).
  { induction n; simpl; intros; auto. rewrite IHn. reflexivity. }
  assert (HA : forall k n1 n2 a b c d e k', addRow k n1 n2 a b c d e = SOk k' tt ->
     _repeatRows k' = _repeatRows k).
  { intros k n1 n2 a b c d e k' H. unfold addRow in H.
    destruct (negb _); [discriminate|]. destruct (Rltb _ _); [discriminate|].
    destruct (Rltb _ _); [discriminate|]. injection H as <-. simpl. now rewrite HK. }
  assert (HI : forall n j k k', repeat_inner n j k = SOk k' tt -> _repeatRows k' = _repeatRows k).
  { induction n; simpl; intros j k k' H; [now inversion H|].
    destruct (nth_error (_rows k) j); [|discriminate].
    destruct (addRow _ _ _ _ _ _ _ _) eqn:Ea; try discriminate. destruct a.
    rewrite (IHn _ _ _ H). eapply HA; eauto. }
  assert (HO : forall m n k k', repeat_outer m n k = SOk k' tt -> _repeatRows k' = _repeatRows k).
  { induction m; simpl; intros n k k' H; [now inversion H|].
    destruct (repeat_inner n 0 k) eqn:Ei; try discriminate. destruct a.
    rewrite (IHm _ _ _ H). eapply HI; eauto. }
  unfold getRepeatRowCount. rewrite (HO _ _ _ _ Ho). simpl. exact Hi.
Qed.

(** ** pad indices and cached pad lists *)
Lemma sub_rows : forall x0 x1 y0 E ex rp l i,
  rep x0 x1 y0 E ex rp l ->
  nthZ (_rows l) (Z.of_nat i) = option_map (row_at x0 x1 (bottom y0 E i)) (nth_error E i).
Proof. intros. rewrite nthZ_of_nat, (rep_rows _ _ _ _ _ _ _ H). apply rows_of_nth. Qed.

Lemma rows_len : forall x0 x1 y0 E ex rp l,
  rep x0 x1 y0 E ex rp l -> List.length (_rows l) = List.length E.
Proof. intros. rewrite (rep_rows _ _ _ _ _ _ _ H). apply rows_of_length. Qed.

Lemma getPadIndex_ok_raw : forall l r p v, getPadIndex l r p = Ok v -> v = raw r p.
Proof.
  intros l r p v H. unfold getPadIndex in H.
  destruct (_ <? _)%Z; [discriminate|]. destruct (sub _ _); cbn [rbind] in H; try discriminate.
  destruct (_ <? _)%Z; [discriminate|]. now inversion H.
Qed.

Lemma indices_from_ok : forall l r k i v, indices_from l r k i = Ok v -> v = raws r k i.
Proof.
  intros l r k. induction k; simpl; intros i v H; [now inversion H|].
  destruct (getPadIndex l r i) eqn:Eg; cbn [rbind rmap] in H; try discriminate.
  destruct (indices_from l r k (i + 1)) eqn:Ei; cbn [rbind rmap] in H; try discriminate.
  inversion H. apply getPadIndex_ok_raw in Eg. f_equal; auto.
Qed.

Lemma indices_from_no_ub : forall l r k i row, nthZ (_rows l) r = Some row -> indices_from l r k i <> UB.
Proof.
  intros l r k. induction k; simpl; intros i row Hr; [discriminate|].
  destruct (getPadIndex l r i) eqn:Eg; cbn [rbind rmap]; try discriminate.
  - specialize (IHk (i + 1)%Z row Hr). destruct (indices_from l r k (i + 1)); simpl; try discriminate; auto.
  - unfold getPadIndex in Eg. destruct (_ <? _)%Z; [discriminate|]. unfold sub in Eg. rewrite Hr in Eg.
    cbn [rbind] in Eg. destruct (_ <? _)%Z; discriminate.
Qed.

Lemma getPadsInRow_rep : forall x0 x1 y0 E ex rp l r,
  rep x0 x1 y0 E ex rp l ->
  exists l' v, getPadsInRow l r = SOk l' v /\ rep x0 x1 y0 E ex rp l'.
Proof.
  intros x0 x1 y0 E ex rp l r HR. unfold getPadsInRow.
  destruct (nthZ (_padIndices l) r) as [[v|]|] eqn:Ec; eauto.
  destruct (nthZ (_rows l) r) as [row|] eqn:Er; eauto.
  destruct (indices_from l r (Z.to_nat (NPad row)) 0) as [v|e|] eqn:Ei; eauto.
  - do 2 eexists; split; [reflexivity|].
    pose proof (nthZ_some _ _ _ _ Er) as Hrr. rewrite (rows_len _ _ _ _ _ _ _ HR) in Hrr.
    destruct HR as [He0 He1 He2 He3 Hrows Hgood Hnrow Hnpad Hrpt Hclen Hcache]. constructor; auto.
    + cbn [_padIndices set_cache]. rewrite !app_length, firstn_length, skipn_length. simpl List.length. lia.
    + intros i w Hi. cbn [_padIndices set_cache] in Hi.
      destruct (lt_eq_lt_dec i (Z.to_nat r)) as [[Hlt|Heq]|Hgt].
      * rewrite nth_error_app1 in Hi by (rewrite firstn_length; lia).
        rewrite nth_firstn in Hi by lia. auto.
      * subst i. rewrite nth_error_app2 in Hi by (rewrite firstn_length; lia).
        rewrite firstn_length in Hi. replace (_ - _)%nat with 0%nat in Hi by lia. cbn [app nth_error] in Hi.
        inversion Hi; subst w. 
        assert (Hrow : exists s, nth_error E (Z.to_nat r) = Some s /\ NPad row = s_n s).
        { unfold nthZ in Er. destruct (r <? 0)%Z; [discriminate|]. rewrite Hrows, rows_of_nth in Er.
          destruct (nth_error E (Z.to_nat r)); [|discriminate]. inversion Er. eauto. }
        destruct Hrow as [s [Hs Hn]]. exists s. split; auto.
        apply indices_from_ok in Ei. rewrite Hn in Ei. rewrite Z2Nat.id by lia. auto.
      * rewrite nth_error_app2 in Hi by (rewrite firstn_length; lia).
        rewrite firstn_length in Hi.
        replace (i - _)%nat with (S (i - S (Z.to_nat r)))%nat in Hi by lia. 
        cbn [app nth_error] in Hi.
        apply Hcache.
        rewrite nth_skipn in Hi. rewrite <- Hi. f_equal. lia.
  - exfalso. eapply indices_from_no_ub; eauto.
Qed.

(** ** histories *)
Lemma do_call_rep : forall x0 x1 y0 E ex rp l c,
  rep x0 x1 y0 E ex rp l -> legal_call c ->
  exists l', do_call l c = Some l' /\
    rep x0 x1 y0 (fst (expect1 x0 x1 (E, rp) c)) (ex + refused_for_height x0 x1 c)
        (snd (expect1 x0 x1 (E, rp) c)) l'.
Proof.
  intros x0 x1 y0 E ex rp l c HR HL. destruct c as [a|n|r]; simpl.
  - pose proof (addRow_rep _ _ _ _ _ _ _ _ HR HL) as HA. cbv zeta in HA.
    destruct HA as [(Hw&Hh&l'&Hl&HR')|[(Hw&Hh&l'&e&Hl&HR')|(Hw&e&Hl)]]; rewrite Hl; eexists; (split; [reflexivity|]);
      (destruct (width_fits_dec x0 x1 (srow_of a)); try tauto);
      (try (destruct (height_fits_dec (srow_of a)); try tauto)); simpl; rewrite ?Z.add_0_r; auto.
  - destruct rp.
    + unfold repeatRows. rewrite (rep_rpt _ _ _ _ _ _ _ HR). eexists; split; [reflexivity|].
      rewrite Z.add_0_r. auto.
    + simpl in HL. destruct (repeatRows_rep _ _ _ _ _ _ n HR) as [l' [Hl [HR' _]]]; [lia|].
      rewrite Hl. eexists; split; [reflexivity|]. rewrite Z.add_0_r. simpl.
      rewrite uint32_small in HR' by lia.
      replace (Z.to_nat n) with (S (Z.to_nat (n - 1))) by lia. simpl.
      replace (0 <? n)%Z with true in HR' by (symmetry; apply Z.ltb_lt; lia). exact HR'.
  - destruct (getPadsInRow_rep _ _ _ _ _ _ _ r HR) as [l' [v [Hl HR']]]. rewrite Hl.
    eexists; split; [reflexivity|]. now rewrite Z.add_0_r.
Qed.

Lemma do_calls_rep : forall x0 x1 y0 h E ex rp l,
  rep x0 x1 y0 E ex rp l -> Forall legal_call h ->
  exists l', do_calls l h = Some l' /\
    rep x0 x1 y0 (fst (fold_left (expect1 x0 x1) h (E, rp))) (ex + refused_pads x0 x1 h)
        (snd (fold_left (expect1 x0 x1) h (E, rp))) l'.
Proof.
  intros x0 x1 y0 h. induction h as [|c t IH]; intros E ex rp l HR HL; simpl.
  - eexists; split; [reflexivity|]. now rewrite Z.add_0_r.
  - inversion HL; subst. destruct (do_call_rep _ _ _ _ _ _ _ _ HR H1) as [l' [Hl HR']].
    rewrite Hl. destruct (IH _ _ _ _ HR' H2) as [l'' [Hl' HR'']].
    exists l''. split; auto.
    rewrite (surjective_pairing (expect1 x0 x1 (E, rp) c)). rewrite Z.add_assoc. exact HR''.
Qed.

Lemma built_rep : forall x0 x1 y0 h l, built x0 x1 y0 h l ->
  rep x0 x1 y0 (expected_rows x0 x1 h) (refused_pads x0 x1 h) (snd (expected x0 x1 h)) l.
Proof.
  intros x0 x1 y0 h l [HL Hd].
  destruct (do_calls_rep x0 x1 y0 h _ _ _ _ (rep_new x0 x1 y0) HL) as [l' [Hl HR]].
  rewrite Hd in Hl. inversion Hl; subst. exact HR.
Qed.
