(** Proofs about RectangularPadRowLayout: queries on a built layout. *)
From Coq Require Import ZArith List String Bool Reals Lra Lia.
From Flocq Require Import Core.Raux Core.Generic_fmt.
From Verif Require Import Base RBase ListExtra BitProofs RectModel RectSpec RectProofs.
Import ListNotations.
Open Scope R_scope.

Lemma code_int32 : forall r p, (0 <= r < 65536)%Z -> (0 <= p < 65536)%Z ->
  int32 (r * 65536 + p) = code r p.
Proof.
  intros r p Hr Hp. unfold int32, code. rewrite Z.mod_small by lia. reflexivity.
Qed.
Lemma raw_code : forall r p, (0 <= r < 65536)%Z -> (0 <= p < 65536)%Z -> raw r p = code r p.
Proof. intros. unfold raw. rewrite pack_eq by lia. now apply code_int32. Qed.

Lemma getPadNumber_code : forall i j, (0 <= i < 65536)%Z -> (0 <= j < 65536)%Z ->
  getPadNumber (code i j) = j.
Proof. intros. unfold getPadNumber. rewrite <- code_int32 by lia. apply pack_pad; lia. Qed.

Lemma bottom_S : forall y0 E i s, nth_error E i = Some s -> bottom y0 E (S i) = bottom y0 E i + s_h s.
Proof.
  intros. unfold bottom. rewrite (firstn_S _ _ _ _ H), heights_app. simpl. lra.
Qed.
Lemma bottom_all : forall y0 E, bottom y0 E (List.length E) = y0 + heights E.
Proof. intros. unfold bottom. now rewrite firstn_all. Qed.
Lemma bottom_0 : forall y0 E, bottom y0 E 0 = y0.
Proof. intros. unfold bottom. simpl. lra. Qed.

Section Queries.
  Context {x0 x1 y0 : R} {E : list srow} {ex : Z} {rp : bool} {l : rect}.
  Hypothesis HR : rep x0 x1 y0 E ex rp l.
  Hypothesis HI : indexable E.

  Lemma good_nth : forall i s, nth_error E i = Some s -> good x0 x1 s.
  Proof.
    intros i s H. eapply Forall_forall; [apply (rep_good _ _ _ _ _ _ _ HR)|].
    eapply nth_error_In; eauto.
  Qed.
  Lemma lenE : List.length (_rows l) = List.length E.
  Proof. eapply rows_len; eauto. Qed.
  Lemma row_range : forall i s, nth_error E i = Some s ->
    (i < List.length E)%nat /\ (0 <= Z.of_nat i < 65536)%Z /\ (0 < s_n s <= 65536)%Z.
  Proof.
    intros i s H. destruct HI as [H1 H2].
    assert (i < List.length E)%nat by (apply nth_error_Some; congruence).
    pose proof (good_nth _ _ H) as [Hg _].
    rewrite Forall_forall in H2. specialize (H2 s (nth_error_In _ _ H)). simpl in H2. lia.
  Qed.

  Lemma getRowNumber_code : forall i s j, nth_error E i = Some s -> (0 <= j < s_n s)%Z ->
    getRowNumber l (code (Z.of_nat i) j) = Ok (Z.of_nat i).
  Proof.
    intros i s j Hs Hj. destruct (row_range _ _ Hs) as (Ha & Hb & Hc).
    unfold getRowNumber. rewrite <- code_int32 by lia.
    rewrite pack_row by lia. cbv zeta. rewrite lenE.
    replace (Z.of_nat i <? 0)%Z with false by (symmetry; apply Z.ltb_ge; lia).
    replace (Z.of_nat (List.length E) - 1 <? Z.of_nat i)%Z with false by (symmetry; apply Z.ltb_ge; lia).
    reflexivity.
  Qed.

  Lemma sub_row : forall i s, nth_error E i = Some s ->
    sub (_rows l) (Z.of_nat i) = Ok (row_at x0 x1 (bottom y0 E i) s).
  Proof. intros. unfold sub. rewrite (sub_rows _ _ _ _ _ _ _ _ HR), H. reflexivity. Qed.
  Lemma at_row : forall i s, nth_error E i = Some s ->
    at_ (_rows l) (Z.of_nat i) = Ok (row_at x0 x1 (bottom y0 E i) s).
  Proof. intros. unfold at_. rewrite (sub_rows _ _ _ _ _ _ _ _ HR), H. reflexivity. Qed.

  Lemma getPadIndex_code : forall i j s, nth_error E i = Some s -> (0 <= j < s_n s)%Z ->
    getPadIndex l (Z.of_nat i) j = Ok (code (Z.of_nat i) j).
  Proof.
    intros i j s Hs Hj. destruct (row_range _ _ Hs) as (Ha & Hb & Hc).
    unfold getPadIndex. rewrite lenE. rewrite uint32_small by lia.
    destruct HI as [H1 _]. rewrite Z.mod_small by lia.
    replace (Z.of_nat (List.length E) - 1 <? Z.of_nat i)%Z with false by (symmetry; apply Z.ltb_ge; lia).
    rewrite (sub_row _ _ Hs). cbn [rbind row_at NPad].
    replace (s_n s - 1 <? j)%Z with false by (symmetry; apply Z.ltb_ge; lia).
    rewrite <- raw_code by lia. reflexivity.
  Qed.

  Lemma row_of_code : forall i j s, nth_error E i = Some s -> (0 <= j < s_n s)%Z ->
    row_of l (code (Z.of_nat i) j) = Ok (row_at x0 x1 (bottom y0 E i) s).
  Proof.
    intros i j s Hs Hj. unfold row_of. rewrite (getRowNumber_code _ _ _ Hs Hj). cbn [rbind].
    now apply sub_row.
  Qed.

  Lemma padnum_code : forall i j s, nth_error E i = Some s -> (0 <= j < s_n s)%Z ->
    getPadNumber (code (Z.of_nat i) j) = j.
  Proof. intros i j s Hs Hj. destruct (row_range _ _ Hs) as (Ha & Hb & Hc). apply getPadNumber_code; lia. Qed.

  Lemma pitch_nonneg : forall i s, nth_error E i = Some s ->
    0 <= pitch x0 x1 s /\ s_padW s <= pitch x0 x1 s /\ IZR (s_n s) * pitch x0 x1 s = (x1 - s_right s) - (x0 + s_left s).
  Proof.
    intros i s Hs. destruct (good_nth _ _ Hs) as (H1&H2&H3&H4&H5&H6&H7&H8). unfold width_fits in H7.
    apply IZR_lt in H1. unfold pitch. set (w := x1 - s_right s - (x0 + s_left s)) in *.
    assert (Hx : IZR (s_n s) * (w / IZR (s_n s)) = w) by (field; lra).
    assert (s_padW s <= w / IZR (s_n s)).
    { apply Rmult_le_reg_l with (IZR (s_n s)); [lra|]. rewrite Hx. lra. }
    repeat split; auto; lra.
  Qed.

  (** *** C08 *)
  Lemma c08_row : forall i s, nth_error E i = Some s -> getRowHeight l (Z.of_nat i) = Ok (s_h s).
  Proof. intros. unfold getRowHeight. rewrite (at_row _ _ H). reflexivity. Qed.

  Lemma c08_pad : forall i s j, nth_error E i = Some s -> (0 <= j < s_n s)%Z ->
    let p := code (Z.of_nat i) j in
    getPadIndex l (Z.of_nat i) j = Ok p /\
    getRowNumber l p = Ok (Z.of_nat i) /\ getPadNumber p = j /\
    getPadHeight l p = Ok (s_padH s) /\ getPadWidth l p = Ok (s_padW s) /\
    getPadPitch l p = Ok (pitch x0 x1 s) /\
    getPadCenter l p = Ok (cell_left x0 x1 s j + pitch x0 x1 s / 2, bottom y0 E i + s_h s / 2).
  Proof.
    intros i s j Hs Hj p. subst p. repeat split.
    - now apply getPadIndex_code with s.
    - now apply getRowNumber_code with s.
    - now apply padnum_code with s.
    - unfold getPadHeight. rewrite (row_of_code _ _ _ Hs Hj). reflexivity.
    - unfold getPadWidth. rewrite (row_of_code _ _ _ Hs Hj). reflexivity.
    - unfold getPadPitch. rewrite (row_of_code _ _ _ Hs Hj). reflexivity.
    - unfold getPadCenter. rewrite (row_of_code _ _ _ Hs Hj), (padnum_code _ _ _ Hs Hj). cbn [rmap].
      rewrite (rep_e0 _ _ _ _ _ _ _ HR). reflexivity.
  Qed.

  Lemma cell_inside : forall i s j, nth_error E i = Some s -> (0 <= j < s_n s)%Z ->
    x0 + s_left s <= cell_left x0 x1 s j /\ cell_left x0 x1 s (j + 1) <= x1 - s_right s /\
    cell_left x0 x1 s (j + 1) = cell_left x0 x1 s j + pitch x0 x1 s.
  Proof.
    intros i s j Hs Hj. destruct (pitch_nonneg _ _ Hs) as (Hp & Hw & Hn). unfold cell_left.
    assert (0 <= IZR j) by (apply IZR_le; lia).
    assert (IZR (j + 1) <= IZR (s_n s)) by (apply IZR_le; lia).
    repeat split.
    - pose proof (Rmult_le_pos _ _ H Hp). lra.
    - pose proof (Rmult_le_compat_r _ _ _ Hp H0). lra.
    - rewrite plus_IZR. lra.
  Qed.

  (** *** C10 *)
  Lemma c10_right : forall i s j, nth_error E i = Some s -> (0 <= j < s_n s)%Z ->
    getRightNeighbour l (code (Z.of_nat i) j) =
      if (j + 1 <? s_n s)%Z then Ok (code (Z.of_nat i) (j + 1))
      else Throw (EGear "RectangularPadRowLayout::getRightNeighbour: no right neighbour pad !").
  Proof.
    intros i s j Hs Hj. unfold getRightNeighbour.
    rewrite (getRowNumber_code _ _ _ Hs Hj), (padnum_code _ _ _ Hs Hj). cbn [rbind].
    rewrite (at_row _ _ Hs). cbn [rbind row_at NPad].
    destruct (Z.ltb_spec (s_n s - 1) (j + 1)); destruct (Z.ltb_spec (j + 1) (s_n s)); try lia; auto.
    apply getPadIndex_code with s; auto; lia.
  Qed.
  Lemma c10_left : forall i s j, nth_error E i = Some s -> (0 <= j < s_n s)%Z ->
    getLeftNeighbour l (code (Z.of_nat i) j) =
      if (0 <? j)%Z then Ok (code (Z.of_nat i) (j - 1))
      else Throw (EGear "RectangularPadRowLayout::getLeftNeighbour: no left neighbour pad !").
  Proof.
    intros i s j Hs Hj. unfold getLeftNeighbour.
    rewrite (getRowNumber_code _ _ _ Hs Hj), (padnum_code _ _ _ Hs Hj). cbn [rbind].
    destruct (Z.ltb_spec (j - 1) 0); destruct (Z.ltb_spec 0 j); try lia; auto.
    apply getPadIndex_code with s; auto; lia.
  Qed.

  (** *** isInsidePad, C11 *)
  Lemma isInsidePad_exact : forall i s j x y, nth_error E i = Some s -> (0 <= j < s_n s)%Z ->
    exists b, isInsidePad l x y (code (Z.of_nat i) j) = Ok b /\
      (b = true <->
        Rabs (x - (cell_left x0 x1 s j + pitch x0 x1 s / 2)) <= s_padW s / 2 /\
        Rabs (y - (bottom y0 E i + s_h s / 2)) <= s_padH s / 2).
  Proof.
    intros i s j x y Hs Hj. unfold isInsidePad.
    rewrite (row_of_code _ _ _ Hs Hj), (padnum_code _ _ _ Hs Hj). cbn [rmap row_at LeftOffset WidthPerPad PadWidth PadHeight Center].
    rewrite (rep_e0 _ _ _ _ _ _ _ HR). eexists; split; [reflexivity|].
    rewrite !andb_true_iff, !Rleb_true. unfold cell_left.
    assert (Habs : forall a b c, Rabs (a - b) <= c <-> b - c <= a /\ a <= b + c).
    { intros. split; intros.
      - apply Rabs_le_inv in H. lra.
      - apply Rabs_le. lra. }
    rewrite !Habs. split; intros; repeat split; lra.
  Qed.

  Lemma c11_inside : forall i s j, nth_error E i = Some s -> (0 <= j < s_n s)%Z ->
    exists cx cy, getPadCenter l (code (Z.of_nat i) j) = Ok (cx, cy) /\
      isInsidePad l cx cy (code (Z.of_nat i) j) = Ok true /\
      getDistanceToPad l cx cy (code (Z.of_nat i) j) = Ok 0.
  Proof.
    intros i s j Hs Hj. destruct (c08_pad i s j Hs Hj) as (_&_&_&Hph&Hpw&_&Hc). cbv zeta in *.
    do 2 eexists. split; [exact Hc|].
    destruct (good_nth _ _ Hs) as (H1&H2&H3&H4&H5&H6&H7&H8).
    split.
    - destruct (isInsidePad_exact i s j (cell_left x0 x1 s j + pitch x0 x1 s / 2) (bottom y0 E i + s_h s / 2) Hs Hj)
        as [b [Hb Hiff]].
      rewrite Hb. f_equal. apply Hiff. rewrite !Rminus_diag_eq by reflexivity. rewrite Rabs_R0. lra.
    - unfold getDistanceToPad. rewrite Hc, Hph, Hpw. cbn [rbind rmap fst snd]. f_equal.
      unfold distanceToBox. repeat (rcase; try lra).
  Qed.
End Queries.

(** distanceToBox is the Euclidean distance to a closed box; -1 marks the inside. *)
Lemma sqrt_le_of_sq : forall a b, 0 <= a -> a * a <= b -> a <= sqrt b.
Proof. intros. rewrite <- (sqrt_square a) by auto. apply sqrt_le_1_alt. exact H0. Qed.

Lemma sqrt_sq_plus0 : forall a, 0 <= a -> sqrt (a * a + 0 * 0) = a.
Proof. intros. replace (a * a + 0 * 0) with (a * a) by ring. now apply sqrt_square. Qed.

Lemma distanceToBox_euclid : forall x y xmin ymin xmax ymax,
  xmin <= xmax -> ymin <= ymax ->
  let d := distanceToBox x y xmin ymin xmax ymax in
  is_box_dist x y xmin ymin xmax ymax (if Rltb d 0 then 0 else d).
Proof.
  intros x y xmin ymin xmax ymax Hx Hy d. subst d.
  set (cx := if Rltb x xmin then xmin else if Rltb xmax x then xmax else x).
  set (cy := if Rltb y ymin then ymin else if Rltb ymax y then ymax else y).
  assert (Hcx : xmin <= cx <= xmax) by (unfold cx; repeat rcase; lra).
  assert (Hcy : ymin <= cy <= ymax) by (unfold cy; repeat rcase; lra).
  assert (Hd : (let d := distanceToBox x y xmin ymin xmax ymax in if Rltb d 0 then 0 else d) = dist2 x y cx cy).
  { unfold distanceToBox, dist2, cx, cy. cbv zeta.
    assert (Hs : forall a, ~ sqrt a < 0) by (intros a; pose proof (sqrt_pos a); lra).
    destruct (Rltb_spec x xmin) as [Hx1|Hx1].
    - destruct (Rltb_spec y ymin); [|destruct (Rltb_spec ymax y)].
      + destruct (Rltb_spec (sqrt ((xmin - x) * (xmin - x) + (ymin - y) * (ymin - y))) 0); [exfalso; eapply Hs; eauto|].
        f_equal; ring.
      + destruct (Rltb_spec (sqrt ((xmin - x) * (xmin - x) + (ymax - y) * (ymax - y))) 0); [exfalso; eapply Hs; eauto|].
        f_equal; ring.
      + rcase; [lra|]. replace ((x - xmin) * (x - xmin) + (y - y) * (y - y)) with ((xmin - x) * (xmin - x)) by ring.
        rewrite sqrt_square; lra.
    - destruct (Rltb_spec xmax x) as [Hx2|Hx2].
      + destruct (Rltb_spec y ymin); [|destruct (Rltb_spec ymax y)].
        * destruct (Rltb_spec (sqrt ((xmax - x) * (xmax - x) + (ymin - y) * (ymin - y))) 0); [exfalso; eapply Hs; eauto|].
          f_equal; ring.
        * destruct (Rltb_spec (sqrt ((xmax - x) * (xmax - x) + (ymax - y) * (ymax - y))) 0); [exfalso; eapply Hs; eauto|].
          f_equal; ring.
        * rcase; [lra|]. replace ((x - xmax) * (x - xmax) + (y - y) * (y - y)) with ((x - xmax) * (x - xmax)) by ring.
          rewrite sqrt_square; lra.
      + destruct (Rltb_spec y ymin); [|destruct (Rltb_spec ymax y)].
        * rcase; [lra|]. replace ((x - x) * (x - x) + (y - ymin) * (y - ymin)) with ((ymin - y) * (ymin - y)) by ring.
          rewrite sqrt_square; lra.
        * rcase; [lra|]. replace ((x - x) * (x - x) + (y - ymax) * (y - ymax)) with ((y - ymax) * (y - ymax)) by ring.
          rewrite sqrt_square; lra.
        * rcase; [|lra]. replace ((x - x) * (x - x) + (y - y) * (y - y)) with 0 by ring. now rewrite sqrt_0. }
  cbv zeta in Hd. rewrite Hd. split.
  - exists cx, cy. auto.
  - intros px py Hpx Hpy. unfold dist2. apply sqrt_le_1_alt.
    assert (Hsq : forall a b, Rabs a <= Rabs b -> a * a <= b * b).
    { intros a b Hab. apply Rsqr_le_abs_1 in Hab. exact Hab. }
    assert (H1 : (x - cx) * (x - cx) <= (x - px) * (x - px)).
    { apply Hsq. unfold cx. repeat rcase; unfold Rabs; repeat destruct Rcase_abs; lra. }
    assert (H2 : (y - cy) * (y - cy) <= (y - py) * (y - py)).
    { apply Hsq. unfold cy. repeat rcase; unfold Rabs; repeat destruct Rcase_abs; lra. }
    lra.
Qed.

Lemma getDistanceToPad_euclid : forall x0 x1 y0 E ex rp l, rep x0 x1 y0 E ex rp l -> indexable E ->
  forall i s j x y, nth_error E i = Some s -> (0 <= j < s_n s)%Z ->
  let cx := cell_left x0 x1 s j + pitch x0 x1 s / 2 in
  let cy := bottom y0 E i + s_h s / 2 in
  exists d, getDistanceToPad l x y (code (Z.of_nat i) j) = Ok d /\
    is_box_dist x y (cx - s_padW s / 2) (cy - s_padH s / 2) (cx + s_padW s / 2) (cy + s_padH s / 2) d.
Proof.
  intros x0 x1 y0 E ex rp l HR HI i s j x y Hs Hj cx cy.
  destruct (c08_pad HR HI i s j Hs Hj) as (_&_&_&Hph&Hpw&_&Hc). cbv zeta in *.
  destruct (good_nth HR _ _ Hs) as (H1&H2&H3&H4&H5&H6&H7&H8).
  unfold getDistanceToPad. rewrite Hc, Hph, Hpw. cbn [rbind rmap fst snd]. eexists; split; [reflexivity|].
  fold cx cy.
  replace (s_padW s * (1/2)) with (s_padW s / 2) by lra. replace (s_padH s * (1/2)) with (s_padH s / 2) by lra.
  apply distanceToBox_euclid; lra.
Qed.
