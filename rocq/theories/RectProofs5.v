(** Final form of the RectangularPadRowLayout results. *)
From Coq Require Import ZArith List String Bool Reals Lra Lia.
From Flocq Require Import Core.Raux.
From Verif Require Import Base RBase ListExtra BitProofs RectModel RectSpec RectProofs RectProofs2 RectProofs3 RectProofs4.
Import ListNotations.
Open Scope R_scope.

Lemma code_inj : forall r p r' p', (0 <= r < 65536)%Z -> (0 <= p < 65536)%Z ->
  (0 <= r' < 65536)%Z -> (0 <= p' < 65536)%Z -> code r p = code r' p' -> r = r' /\ p = p'.
Proof.
  intros r p r' p' H1 H2 H3 H4 H. unfold code in H.
  destruct (Z.ltb_spec (r * 65536 + p) 2147483648); destruct (Z.ltb_spec (r' * 65536 + p') 2147483648);
    nia.
Qed.

Lemma rect_index_lossless : forall x0 x1 y0 h l, built x0 x1 y0 h l ->
  indexable (expected_rows x0 x1 h) ->
  forall i s j, nth_error (expected_rows x0 x1 h) i = Some s -> (0 <= j < s_n s)%Z ->
  exists p, getPadIndex l (Z.of_nat i) j = Ok p /\
    getRowNumber l p = Ok (Z.of_nat i) /\ getPadNumber p = j /\
    forall i' s' j', nth_error (expected_rows x0 x1 h) i' = Some s' -> (0 <= j' < s_n s')%Z ->
      getPadIndex l (Z.of_nat i') j' = Ok p -> i' = i /\ j' = j.
Proof.
  intros x0 x1 y0 h l Hb HI i s j Hs Hj. pose proof (built_rep _ _ _ _ _ Hb) as HR.
  destruct (c08_pad HR HI i s j Hs Hj) as (H1 & H2 & H3 & _). cbv zeta in *.
  exists (code (Z.of_nat i) j). repeat split; auto;
    rewrite (getPadIndex_code HR HI _ _ _ H H0) in H4; inversion H4;
    destruct (row_range HR HI _ _ Hs) as (_&?&?); destruct (row_range HR HI _ _ H) as (_&?&?);
    apply code_inj in H6; lia.
Qed.

Lemma rect_negative_pad : forall x0 x1 y0 h l, built x0 x1 y0 h l ->
  indexable (expected_rows x0 x1 h) ->
  forall i s j, nth_error (expected_rows x0 x1 h) i = Some s -> (-65536 <= j < 0)%Z ->
  exists p, getPadIndex l (Z.of_nat i) j = Ok p /\ getPadNumber p = (j + 65536)%Z.
Proof.
  intros x0 x1 y0 h l Hb HI i s j Hs Hj. pose proof (built_rep _ _ _ _ _ Hb) as HR.
  destruct (row_range HR HI _ _ Hs) as (Ha & Hb' & Hc).
  unfold getPadIndex. rewrite (lenE HR). rewrite uint32_small by lia.
  destruct HI as [H1 _]. rewrite Z.mod_small by lia.
  replace (Z.of_nat (List.length (expected_rows x0 x1 h)) - 1 <? Z.of_nat i)%Z with false by (symmetry; apply Z.ltb_ge; lia).
  rewrite (sub_row HR _ _ Hs). cbn [rbind row_at NPad].
  replace (s_n s - 1 <? j)%Z with false by (symmetry; apply Z.ltb_ge; lia).
  eexists; split; [reflexivity|]. unfold getPadNumber. rewrite pack_eq_mod.
  replace (j mod 65536)%Z with (j + 65536)%Z.
  - apply pack_pad. lia.
  - apply Z.mod_unique with (-1)%Z; lia.
Qed.

Lemma rect_alias : forall x0 x1 y0 h l, built x0 x1 y0 h l ->
  forall i s j, nth_error (expected_rows x0 x1 h) i = Some s ->
  (Z.of_nat (List.length (expected_rows x0 x1 h)) <= 65536)%Z ->
  (0 <= j)%Z -> (j + 65536 < s_n s)%Z ->
  getPadIndex l (Z.of_nat i) (j + 65536) = getPadIndex l (Z.of_nat i) j /\
  exists p, getPadIndex l (Z.of_nat i) j = Ok p.
Proof.
  intros x0 x1 y0 h l Hb i s j Hs HL Hj Hn. pose proof (built_rep _ _ _ _ _ Hb) as HR.
  assert (Ha : (i < List.length (expected_rows x0 x1 h))%nat) by (apply nth_error_Some; congruence).
  unfold getPadIndex. rewrite (lenE HR). rewrite uint32_small by lia. rewrite Z.mod_small by lia.
  replace (Z.of_nat (List.length (expected_rows x0 x1 h)) - 1 <? Z.of_nat i)%Z with false by (symmetry; apply Z.ltb_ge; lia).
  rewrite (sub_row HR _ _ Hs). cbn [rbind row_at NPad].
  replace (s_n s - 1 <? j)%Z with false by (symmetry; apply Z.ltb_ge; lia).
  replace (s_n s - 1 <? j + 65536)%Z with false by (symmetry; apply Z.ltb_ge; lia).
  split; [|eauto]. do 3 f_equal. rewrite !land_65535.
  replace (j + 65536)%Z with (j + 1 * 65536)%Z by lia. now rewrite Z.mod_add by lia.
Qed.

Lemma rect_rows_tile : forall x0 x1 y0 h l, built x0 x1 y0 h l ->
  let E := expected_rows x0 x1 h in
  getNRows l = Z.of_nat (List.length E) /\
  getPlaneExtent l = [x0; x1; y0; y0 + heights E] /\
  getNPads l = (total_pads E + refused_pads x0 x1 h)%Z /\
  forall i s, nth_error E i = Some s ->
    getRowHeight l (Z.of_nat i) = Ok (s_h s) /\
    bottom y0 E (S i) = bottom y0 E i + s_h s /\
    (indexable E -> forall j, (0 <= j < s_n s)%Z -> exists p cx cy,
       getPadIndex l (Z.of_nat i) j = Ok p /\
       getPadHeight l p = Ok (s_padH s) /\ getPadWidth l p = Ok (s_padW s) /\
       getPadPitch l p = Ok (pitch x0 x1 s) /\ getPadCenter l p = Ok (cx, cy) /\
       cy = bottom y0 E i + s_h s / 2 /\
       bottom y0 E i <= cy - s_padH s / 2 /\ cy + s_padH s / 2 <= bottom y0 E (S i) /\
       cx = cell_left x0 x1 s j + pitch x0 x1 s / 2 /\
       cell_left x0 x1 s j <= cx - s_padW s / 2 /\ cx + s_padW s / 2 <= cell_left x0 x1 s (j + 1) /\
       x0 + s_left s <= cell_left x0 x1 s j /\ cell_left x0 x1 s (j + 1) <= x1 - s_right s).
Proof.
  intros x0 x1 y0 h l Hb E. pose proof (built_rep _ _ _ _ _ Hb) as HR. fold E in HR.
  split; [unfold getNRows; now rewrite (lenE HR)|].
  split.
  { unfold getPlaneExtent. rewrite (rep_e0 _ _ _ _ _ _ _ HR), (rep_e1 _ _ _ _ _ _ _ HR),
      (rep_e2 _ _ _ _ _ _ _ HR), (rep_e3 _ _ _ _ _ _ _ HR). reflexivity. }
  split; [exact (rep_npad _ _ _ _ _ _ _ HR)|].
  intros i s Hs. split; [eapply c08_row; eauto|]. split; [now apply bottom_S|].
  intros HI j Hj.
  destruct (c08_pad HR HI i s j Hs Hj) as (H1 & H2 & H3 & H4 & H5 & H6 & H7). cbv zeta in *.
  destruct (cell_inside HR i s j Hs Hj) as (Ha & Hb' & Hc).
  destruct (pitch_nonneg HR _ _ Hs) as (Hp & Hw & Hn).
  destruct (good_nth HR _ _ Hs) as (_&_&_&_&_&_&_&Hh). unfold height_fits in Hh.
  pose proof (bottom_S y0 E i s Hs).
  exists (code (Z.of_nat i) j), (cell_left x0 x1 s j + pitch x0 x1 s / 2), (bottom y0 E i + s_h s / 2).
  repeat split; auto; lra.
Qed.

Lemma rect_nearest_sound : forall x0 x1 y0 h l, built x0 x1 y0 h l ->
  let E := expected_rows x0 x1 h in
  indexable E -> full_height E -> 0 < heights E ->
  forall fuel x y r, getNearestPad fuel l x y = Some r ->
  exists i s j p, r = Ok p /\ getPadIndex l (Z.of_nat i) j = Ok p /\
    pad_at x0 x1 y0 E (clampR x0 x1 x) (clampR y0 (y0 + heights E) y) i s j.
Proof.
  intros x0 x1 y0 h l Hb E HI HF Hpos fuel x y r Hr. pose proof (built_rep _ _ _ _ _ Hb) as HR.
  destruct (nearest_sound HR HI HF Hpos _ _ _ _ Hr) as (i & s & j & H1 & H2).
  exists i, s, j, (code (Z.of_nat i) j). split; [exact H1|]. split; [|exact H2].
  eapply getPadIndex_code; eauto; apply H2.
Qed.

Lemma rect_nearest_uniform : forall x0 x1 y0 h l, built x0 x1 y0 h l ->
  let E := expected_rows x0 x1 h in
  indexable E -> full_height E -> forall H, 0 < H -> E <> [] -> Forall (fun s => s_h s = H) E ->
  forall x y, exists i s j p, getNearestPad 2 l x y = Some (Ok p) /\
    getPadIndex l (Z.of_nat i) j = Ok p /\
    pad_at x0 x1 y0 E (clampR x0 x1 x) (clampR y0 (y0 + heights E) y) i s j.
Proof.
  intros x0 x1 y0 h l Hb E HI HF H HH Hne HU x y. pose proof (built_rep _ _ _ _ _ Hb) as HR. fold E in HR.
  assert (Hpos : 0 < heights E).
  { rewrite (heights_uniform (y0:=y0) H HU).
    apply Rmult_lt_0_compat; auto. apply (lt_INR 0). destruct E; simpl; [congruence|lia]. }
  destruct (nearest_uniform HR HI HF Hpos H 2 x y HU (le_n _)) as [r Hr].
  destruct (rect_nearest_sound _ _ _ _ _ Hb HI HF Hpos _ _ _ _ Hr) as (i & s & j & p & H1 & H2 & H3).
  subst r. exists i, s, j, p. auto.
Qed.

Lemma rect_low_pads : forall x0 x1 y0 h l, built x0 x1 y0 h l ->
  let E := expected_rows x0 x1 h in
  (Z.of_nat (List.length E) <= 65536)%Z -> 0 < heights E ->
  forall fuel x y s,
  (nth_error E 0 = Some s /\ y <= y0 \/
   nth_error E (List.length E - 1) = Some s /\ y0 + heights E <= y) ->
  s_padH s < s_h s -> getNearestPad (S fuel) l x y = Some UB.
Proof.
  intros x0 x1 y0 h l Hb E HL Hpos fuel x y s Hs Hp. pose proof (built_rep _ _ _ _ _ Hb) as HR.
  destruct Hs as [[Hs Hy]|[Hs Hy]].
  - eapply low_bottom; eauto.
  - eapply low_top; eauto.
Qed.

Lemma rect_nearest_hangs : exists x0 x1 y0 h l,
  built x0 x1 y0 h l /\ indexable (expected_rows x0 x1 h) /\ full_height (expected_rows x0 x1 h) /\
  exists y, y0 <= y <= y0 + heights (expected_rows x0 x1 h) /\
    forall fuel x, getNearestPad fuel l x y = None.
Proof.
  destruct hang_built as [l Hl]. exists 0, 1, 0, hang_calls, l. unfold expected_rows. rewrite hang_expected.
  cbn [fst]. split; auto. split; [apply hang_indexable|]. split; [apply hang_full|].
  exists 9. split; [simpl; lra|]. now apply hang_nearest.
Qed.

Lemma rect_right : forall x0 x1 y0 h l, built x0 x1 y0 h l ->
  let E := expected_rows x0 x1 h in indexable E ->
  forall i s j p, nth_error E i = Some s -> (0 <= j < s_n s)%Z -> getPadIndex l (Z.of_nat i) j = Ok p ->
  ((j + 1 < s_n s)%Z -> exists q, getRightNeighbour l p = Ok q /\ getPadIndex l (Z.of_nat i) (j + 1) = Ok q /\
       getLeftNeighbour l q = Ok p) /\
  ((j + 1 = s_n s)%Z -> exists m, getRightNeighbour l p = Throw (EGear m)) /\
  ((0 < j)%Z -> exists q, getLeftNeighbour l p = Ok q /\ getPadIndex l (Z.of_nat i) (j - 1) = Ok q /\
       getRightNeighbour l q = Ok p) /\
  ((j = 0)%Z -> exists m, getLeftNeighbour l p = Throw (EGear m)).
Proof.
  intros x0 x1 y0 h l Hb E HI i s j p Hs Hj Hp. pose proof (built_rep _ _ _ _ _ Hb) as HR. fold E in HR.
  rewrite (getPadIndex_code HR HI _ _ _ Hs Hj) in Hp. inversion Hp; subst p.
  rewrite (c10_right HR HI _ _ _ Hs Hj), (c10_left HR HI _ _ _ Hs Hj).
  split; [|split; [|split]]; intros Hc.
  - replace (j + 1 <? s_n s)%Z with true by (symmetry; apply Z.ltb_lt; lia).
    eexists; split; [reflexivity|]. split.
    + eapply getPadIndex_code; eauto; lia.
    + rewrite (c10_left HR HI _ _ _ Hs) by lia. replace (0 <? j + 1)%Z with true by (symmetry; apply Z.ltb_lt; lia).
      do 2 f_equal. lia.
  - replace (j + 1 <? s_n s)%Z with false by (symmetry; apply Z.ltb_ge; lia). eauto.
  - replace (0 <? j)%Z with true by (symmetry; apply Z.ltb_lt; lia).
    eexists; split; [reflexivity|]. split.
    + eapply getPadIndex_code; eauto; lia.
    + rewrite (c10_right HR HI _ _ _ Hs) by lia. replace (j - 1 + 1 <? s_n s)%Z with true by (symmetry; apply Z.ltb_lt; lia).
      do 2 f_equal. lia.
  - replace (0 <? j)%Z with false by (symmetry; apply Z.ltb_ge; lia). eauto.
Qed.

Lemma rect_centre_inside : forall x0 x1 y0 h l, built x0 x1 y0 h l ->
  let E := expected_rows x0 x1 h in indexable E ->
  forall i s j p, nth_error E i = Some s -> (0 <= j < s_n s)%Z -> getPadIndex l (Z.of_nat i) j = Ok p ->
  exists cx cy, getPadCenter l p = Ok (cx, cy) /\ isInsidePad l cx cy p = Ok true /\
    getDistanceToPad l cx cy p = Ok 0.
Proof.
  intros x0 x1 y0 h l Hb E HI i s j p Hs Hj Hp. pose proof (built_rep _ _ _ _ _ Hb) as HR. fold E in HR.
  rewrite (getPadIndex_code HR HI _ _ _ Hs Hj) in Hp. inversion Hp; subst p.
  eapply c11_inside; eauto.
Qed.

Lemma rect_inside_exact : forall x0 x1 y0 h l, built x0 x1 y0 h l ->
  let E := expected_rows x0 x1 h in indexable E ->
  forall i s j p, nth_error E i = Some s -> (0 <= j < s_n s)%Z -> getPadIndex l (Z.of_nat i) j = Ok p ->
  forall x y, exists b d,
    isInsidePad l x y p = Ok b /\ getDistanceToPad l x y p = Ok d /\
    let cx := cell_left x0 x1 s j + pitch x0 x1 s / 2 in
    let cy := bottom y0 E i + s_h s / 2 in
    (b = true <-> cx - s_padW s / 2 <= x <= cx + s_padW s / 2 /\ cy - s_padH s / 2 <= y <= cy + s_padH s / 2) /\
    is_box_dist x y (cx - s_padW s / 2) (cy - s_padH s / 2) (cx + s_padW s / 2) (cy + s_padH s / 2) d.
Proof.
  intros x0 x1 y0 h l Hb E HI i s j p Hs Hj Hp x y. pose proof (built_rep _ _ _ _ _ Hb) as HR. fold E in HR.
  rewrite (getPadIndex_code HR HI _ _ _ Hs Hj) in Hp. inversion Hp; subst p.
  destruct (isInsidePad_exact HR HI i s j x y Hs Hj) as [b [Hb1 Hb2]].
  destruct (getDistanceToPad_euclid _ _ _ _ _ _ _ HR HI i s j x y Hs Hj) as [d [Hd1 Hd2]].
  exists b, d. split; [exact Hb1|]. split; [exact Hd1|]. cbv zeta. split; [|exact Hd2].
  rewrite Hb2. split; intros [Ha Hc].
  - apply Rabs_le_inv in Ha. apply Rabs_le_inv in Hc. lra.
  - split; apply Rabs_le; lra.
Qed.

(** ** pad lists and clones *)
Lemma rect_pads_in_row : forall x0 x1 y0 h l, built x0 x1 y0 h l ->
  let E := expected_rows x0 x1 h in indexable E ->
  forall r, exists l' v, getPadsInRow l r = SOk l' v /\
    (forall i s, r = Z.of_nat i -> nth_error E i = Some s ->
       List.length v = Z.to_nat (s_n s) /\
       forall j, (0 <= j < s_n s)%Z -> exists p, nth_error v (Z.to_nat j) = Some p /\ getPadIndex l r j = Ok p) /\
    ((r < 0 \/ Z.of_nat (List.length E) <= r)%Z -> v = []).
Proof.
  intros x0 x1 y0 h l Hb E HI r. pose proof (built_rep _ _ _ _ _ Hb) as HR. fold E in HR.
  destruct (pads_in_row_exact _ _ _ _ _ _ _ r HR HI) as (l' & v & H1 & H2 & H3).
  exists l', v. split; auto. split; auto. intros i s Hr Hs. specialize (H2 i s Hr Hs). subst v.
  unfold upto. split; [now rewrite !map_length, seq_length|].
  intros j Hj. exists (code r j). split.
  - rewrite map_map. rewrite nth_error_map.
    rewrite (nth_error_nth' (seq 0 (Z.to_nat (s_n s))) 0%nat) by (rewrite seq_length; lia).
    rewrite seq_nth by lia. simpl. f_equal. f_equal. lia.
  - subst r. eapply getPadIndex_code; eauto.
Qed.

Lemma rect_clone_same : forall l,
  getNRows (clone l) = getNRows l /\ getNPads (clone l) = getNPads l /\
  getRepeatRowCount (clone l) = getRepeatRowCount l /\ getPlaneExtent (clone l) = getPlaneExtent l /\
  (forall i, getRowHeight (clone l) i = getRowHeight l i) /\
  (forall i, getPadHeight (clone l) i = getPadHeight l i) /\
  (forall i, getPadWidth (clone l) i = getPadWidth l i) /\
  (forall i, getPadPitch (clone l) i = getPadPitch l i) /\
  (forall i, getPadCenter (clone l) i = getPadCenter l i) /\
  (forall i, getRowNumber (clone l) i = getRowNumber l i) /\
  (forall r p, getPadIndex (clone l) r p = getPadIndex l r p) /\
  (forall fuel x y, getNearestPad fuel (clone l) x y = getNearestPad fuel l x y) /\
  (forall i, getRightNeighbour (clone l) i = getRightNeighbour l i) /\
  (forall i, getLeftNeighbour (clone l) i = getLeftNeighbour l i) /\
  (forall x y i, isInsidePad (clone l) x y i = isInsidePad l x y i) /\
  (forall fuel x y, isInsideAnyPad fuel (clone l) x y = isInsideAnyPad fuel l x y) /\
  (forall x y i, getDistanceToPad (clone l) x y i = getDistanceToPad l x y i).
Proof.
  intros l.
  assert (Hn : forall fuel x y, getNearestPad fuel (clone l) x y = getNearestPad fuel l x y).
  { intros. unfold getNearestPad. cbv zeta. rewrite search_clone. reflexivity. }
  repeat (split; [solve [reflexivity | exact Hn]|]).
  split; [|reflexivity].
  intros. unfold isInsideAnyPad. rewrite Hn. reflexivity.
Qed.

Lemma rect_clone_no_pads : forall x0 x1 y0 h l, built x0 x1 y0 h l ->
  forall r, getPadsInRow (clone l) r = SOk (clone l) [].
Proof.
  intros x0 x1 y0 h l Hb r. pose proof (built_rep _ _ _ _ _ Hb) as HR. eapply clone_pads_empty; eauto.
Qed.

(** ** repetition *)
Lemma no_repeat_flag : forall x0 x1 h E, no_repeat h ->
  snd (fold_left (expect1 x0 x1) h (E, false)) = false.
Proof.
  intros x0 x1 h. induction h as [|c t IH]; intros E Hn; [reflexivity|]. simpl.
  assert (Ht : no_repeat t) by (intros n Hi; apply (Hn n); now right).
  destruct c as [a|n|r]; simpl.
  - destruct (width_fits_dec x0 x1 (srow_of a)); [|now apply IH].
    destruct (height_fits_dec (srow_of a)); now apply IH.
  - exfalso. apply (Hn n). now left.
  - now apply IH.
Qed.

Lemma rect_repeat : forall x0 x1 y0 h l n, built x0 x1 y0 h l -> no_repeat h -> (1 <= n < 2147483648)%Z ->
  exists l', repeatRows l n = SOk l' tt /\ getRepeatRowCount l' = n /\
    getNRows l' = (n * getNRows l)%Z /\
    getPlaneExtent l' = [x0; x1; y0; y0 + IZR n * heights (expected_rows x0 x1 h)] /\
    getNPads l' = (n * total_pads (expected_rows x0 x1 h) + refused_pads x0 x1 h)%Z /\
    (forall m i, (0 <= m < n)%Z -> (0 <= i < getNRows l)%Z ->
       getRowHeight l' (m * getNRows l + i) = getRowHeight l i) /\
    (indexable (expected_rows x0 x1 h) -> (n * getNRows l <= 65536)%Z ->
     forall m i j p, (0 <= m < n)%Z -> (0 <= i < getNRows l)%Z -> (0 <= j)%Z -> getPadIndex l i j = Ok p ->
       exists q cx cy, getPadIndex l' (m * getNRows l + i) j = Ok q /\
         getPadHeight l' q = getPadHeight l p /\ getPadWidth l' q = getPadWidth l p /\
         getPadPitch l' q = getPadPitch l p /\ getPadCenter l p = Ok (cx, cy) /\
         getPadCenter l' q = Ok (cx, cy + IZR m * heights (expected_rows x0 x1 h))) /\
    (forall k, repeatRows l' k = SOk l' tt).
Proof.
  intros x0 x1 y0 h l n Hb Hno Hn. pose proof (built_rep _ _ _ _ _ Hb) as HR.
  assert (Hf : snd (expected x0 x1 h) = false) by (now apply no_repeat_flag).
  rewrite Hf in HR. set (E := expected_rows x0 x1 h) in *.
  destruct (repeatRows_rep _ _ _ _ _ _ n HR ltac:(lia)) as (l' & Hl & HR' & Hc).
  rewrite uint32_small in HR' by lia.
  replace (E ++ List.concat (repeat E (Z.to_nat (n - 1))))%list with (List.concat (repeat E (Z.to_nat n))) in HR'
    by (replace (Z.to_nat n) with (S (Z.to_nat (n - 1))) by lia; reflexivity).
  replace (0 <? n)%Z with true in HR' by (symmetry; apply Z.ltb_lt; lia).
  assert (HnR : INR (Z.to_nat n) = IZR n) by (rewrite INR_IZR_INZ, Z2Nat.id; [auto|lia]).
  assert (HN : getNRows l = Z.of_nat (List.length E)) by (unfold getNRows; now rewrite (lenE HR)).
  exists l'. split; auto. split; auto.
  split. { rewrite HN. unfold getNRows. rewrite (lenE HR'), len_concat_repeat. lia. }
  split. { unfold getPlaneExtent. rewrite (rep_e0 _ _ _ _ _ _ _ HR'), (rep_e1 _ _ _ _ _ _ _ HR'),
      (rep_e2 _ _ _ _ _ _ _ HR'), (rep_e3 _ _ _ _ _ _ _ HR'), heights_concat_repeat, HnR. reflexivity. }
  split. { unfold getNPads. rewrite (rep_npad _ _ _ _ _ _ _ HR'). f_equal.
    rewrite <- (Z2Nat.id n) at 2 by lia. generalize (Z.to_nat n) as k. induction k; simpl repeat; simpl List.concat.
    - reflexivity.
    - rewrite total_app, IHk. lia. }
  assert (Hnth : forall m i, (0 <= m < n)%Z -> (0 <= i < getNRows l)%Z ->
     exists s k, i = Z.of_nat k /\ nth_error E k = Some s /\
       (m * getNRows l + i)%Z = Z.of_nat (Z.to_nat m * List.length E + k) /\
       nth_error (List.concat (repeat E (Z.to_nat n))) (Z.to_nat m * List.length E + k) = Some s).
  { intros m i Hm Hi. rewrite HN in Hi.
    destruct (nth_error E (Z.to_nat i)) as [s|] eqn:Hs; [|apply nth_error_None in Hs; lia].
    exists s, (Z.to_nat i). repeat split; auto; try lia.
    rewrite nth_concat_repeat by lia. exact Hs. }
  split.
  { intros m i Hm Hi. destruct (Hnth m i Hm Hi) as (s & k & Hk & Hs & Hmk & Hs').
    rewrite Hmk, Hk. rewrite (c08_row HR _ _ Hs), (c08_row HR' _ _ Hs'). reflexivity. }
  split.
  { intros HI HnI m i j p Hm Hi Hj0 Hp. destruct (Hnth m i Hm Hi) as (s & k & Hk & Hs & Hmk & Hs').
    assert (HI' : indexable (List.concat (repeat E (Z.to_nat n)))).
    { split. rewrite len_concat_repeat. lia. 
      apply Forall_forall. intros z Hz. apply in_concat in Hz. destruct Hz as (q & Hq & Hz).
      apply repeat_spec in Hq. subst q. destruct HI as [_ HI]. rewrite Forall_forall in HI. auto. }
    assert (Hj : (0 <= j < s_n s)%Z).
    { rewrite Hk in Hp. unfold getPadIndex in Hp. destruct (_ <? _)%Z; [discriminate|].
      rewrite (sub_row HR _ _ Hs) in Hp. cbn [rbind row_at NPad] in Hp.
      destruct (Z.ltb_spec (s_n s - 1) j); [discriminate|lia]. }
    rewrite Hk in Hp. rewrite (getPadIndex_code HR HI _ _ _ Hs Hj) in Hp. inversion Hp; subst p.
    destruct (c08_pad HR HI _ _ _ Hs Hj) as (_&_&_&H4&H5&H6&H7).
    destruct (c08_pad HR' HI' _ _ _ Hs' Hj) as (G1&_&_&G4&G5&G6&G7). cbv zeta in *.
    do 3 eexists. rewrite Hmk. split; [exact G1|]. rewrite G4, G5, G6, G7, H4, H5, H6, H7.
    repeat (split; [reflexivity|]). f_equal. f_equal.
    rewrite bottom_concat_repeat by lia. rewrite INR_IZR_INZ, Z2Nat.id by lia. lra. }
  intros k. unfold repeatRows. rewrite (rep_rpt _ _ _ _ _ _ _ HR'). reflexivity.
Qed.

Lemma rect_repeat_zero : forall x0 x1 y0 h l, built x0 x1 y0 h l -> no_repeat h ->
  exists l', repeatRows l 0 = SOk l' tt /\ getNRows l' = (4294967296 * getNRows l)%Z.
Proof.
  intros x0 x1 y0 h l Hb Hno. pose proof (built_rep _ _ _ _ _ Hb) as HR.
  assert (Hf : snd (expected x0 x1 h) = false) by (now apply no_repeat_flag).
  rewrite Hf in HR.
  destruct (repeatRows_rep _ _ _ _ _ _ 0 HR ltac:(lia)) as (l' & Hl & HR' & Hc).
  exists l'. split; auto. unfold getNRows. rewrite (lenE HR'), (lenE HR), app_length, len_concat_repeat.
  change (uint32 (0 - 1)) with 4294967295%Z. 
  rewrite Nat2Z.inj_add, Nat2Z.inj_mul, Z2Nat.id by lia. lia.
Qed.

Lemma rect_npads_refuted : exists x0 x1 y0 h l, built x0 x1 y0 h l /\
  getNPads l <> total_pads (expected_rows x0 x1 h).
Proof.
  set (h := [CAdd (mkAdd 1 1 1 2 0 0 0); CAdd (mkAdd 5 3 (1/4) 2 1 0 0)]).
  assert (HL : Forall legal_call h) by (unfold h; repeat constructor; simpl; lra).
  destruct (do_calls_rep 0 1 0 h _ _ _ _ (rep_new 0 1 0) HL) as [l [Hl _]].
  assert (Hb : built 0 1 0 h l) by (split; auto).
  exists 0, 1, 0, h, l. split; auto.
  destruct (rect_rows_tile _ _ _ _ _ Hb) as (_ & _ & Hn & _). cbv zeta in Hn. rewrite Hn.
  assert (refused_pads 0 1 h = 15%Z); [|lia].
  unfold h, refused_pads, refused_for_height.
  rewrite if_wf by (unfold width_fits; simpl; lra).
  rewrite if_hf by (unfold height_fits; simpl; rewrite asked_z by reflexivity; simpl; lra).
  rewrite if_wf by (unfold width_fits; simpl; lra).
  match goal with |- context[height_fits_dec ?s] => destruct (height_fits_dec s) as [Hh|Hh] end.
  - exfalso. unfold height_fits in Hh. simpl in Hh. rewrite asked_nz in Hh; simpl in *; lra.
  - reflexivity.
Qed.
