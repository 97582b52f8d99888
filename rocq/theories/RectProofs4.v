(** Proofs about RectangularPadRowLayout: defects of the search, pad lists, clones, repetition. *)
From Coq Require Import ZArith List String Bool Reals Lra Lia.
From Flocq Require Import Core.Raux Core.Generic_fmt.
From Verif Require Import Base RBase ListExtra BitProofs RectModel RectSpec RectProofs RectProofs2 RectProofs3.
Import ListNotations.
Open Scope R_scope.

Lemma if_wf : forall A x0 x1 s (a b : A), width_fits x0 x1 s ->
  (if width_fits_dec x0 x1 s then a else b) = a.
Proof. intros. destruct (width_fits_dec x0 x1 s); tauto. Qed.
Lemma if_hf : forall A s (a b : A), height_fits s -> (if height_fits_dec s then a else b) = a.
Proof. intros. destruct (height_fits_dec s); tauto. Qed.
Lemma asked_nz : forall a, a_rowHeight a <> 0 -> asked_height a = a_rowHeight a.
Proof. intros. unfold asked_height. destruct (Req_EM_T (a_rowHeight a) 0); tauto. Qed.
Lemma asked_z : forall a, a_rowHeight a = 0 -> asked_height a = a_padHeight a.
Proof. intros. unfold asked_height. destruct (Req_EM_T (a_rowHeight a) 0); tauto. Qed.

Lemma do_calls_app : forall h1 h2 l,
  do_calls l (h1 ++ h2) = match do_calls l h1 with Some l' => do_calls l' h2 | None => None end.
Proof. induction h1; simpl; intros; auto. destruct (do_call l a); auto. Qed.

Lemma c_round_0 : c_round 0 = 0%Z.
Proof. unfold c_round. apply Znearest_imp. rewrite Rminus_0_r, Rabs_R0. lra. Qed.
Lemma c_round_Z : forall n, c_round (IZR n) = n.
Proof. intros. unfold c_round. apply Znearest_imp. rewrite Rminus_diag_eq, Rabs_R0; lra. Qed.

(** ** pads lower than the row at the edges: the search leaves the layout *)
Section Low.
  Context {x0 x1 y0 : R} {E : list srow} {ex : Z} {rp : bool} {l : rect}.
  Hypothesis HR : rep x0 x1 y0 E ex rp l.
  Hypothesis HL : (Z.of_nat (List.length E) <= 65536)%Z.
  Hypothesis Hpos : 0 < heights E.

  Lemma low_bottom : forall s fuel x y, nth_error E 0 = Some s -> s_padH s < s_h s -> y <= y0 ->
    getNearestPad (S fuel) l x y = Some UB.
  Proof.
    intros s fuel x y Hs Hp Hy. unfold getNearestPad.
    rewrite (rep_e3 _ _ _ _ _ _ _ HR), (rep_e2 _ _ _ _ _ _ _ HR).
    destruct (Reqb_spec (y0 + heights E - y0) 0); [lra|].
    rewrite (clampR_eq y0 (y0 + heights E)) by lra.
    replace (clampR y0 (y0 + heights E) y) with y0
      by (unfold clampR, Rmax, Rmin; repeat destruct Rle_dec; lra).
    rewrite (lenE HR).
    replace (IZR (Z.of_nat (List.length E) - 1) * (y0 - y0) / (y0 + heights E - y0)) with 0 by (field; lra).
    rewrite c_round_0. change (int_okb 0) with true. cbn iota. cbn [search_row].
    pose proof (sub_rows _ _ _ _ _ _ _ 0 HR) as Hr0. change (Z.of_nat 0) with 0%Z in Hr0.
    rewrite Hr0, Hs. cbn [option_map row_at Center PadHeight Height].
    rewrite bottom_0. destruct (good_nth HR _ _ Hs) as (H1&H2&H3&H4&H5&H6&H7&H8).
    replace (y0 - (y0 + s_h s / 2)) with (- (s_h s / 2)) by lra. rewrite Rabs_Ropp, (Rabs_pos_eq (s_h s / 2)) by lra.
    destruct (Rleb_spec (s_h s / 2) (s_padH s / 2)); [lra|].
    destruct (Rleb_spec (s_h s / 2) (s_h s / 2)); [|lra].
    destruct (Rltb_spec (- (s_h s / 2)) 0); [|lra].
    reflexivity.
  Qed.

  Lemma low_top : forall s fuel x y, nth_error E (List.length E - 1) = Some s -> s_padH s < s_h s ->
    y0 + heights E <= y -> getNearestPad (S fuel) l x y = Some UB.
  Proof.
    intros s fuel x y Hs Hp Hy. unfold getNearestPad.
    rewrite (rep_e3 _ _ _ _ _ _ _ HR), (rep_e2 _ _ _ _ _ _ _ HR).
    destruct (Reqb_spec (y0 + heights E - y0) 0); [lra|].
    rewrite (clampR_eq y0 (y0 + heights E)) by lra.
    replace (clampR y0 (y0 + heights E) y) with (y0 + heights E)
      by (unfold clampR, Rmax, Rmin; repeat destruct Rle_dec; lra).
    rewrite (lenE HR).
    assert (Hlen : (List.length E - 1 < List.length E)%nat) by (apply nth_error_Some; congruence).
    replace (IZR (Z.of_nat (List.length E) - 1) * (y0 + heights E - y0) / (y0 + heights E - y0))
      with (IZR (Z.of_nat (List.length E) - 1)) by (field; lra).
    rewrite c_round_Z.
    replace (int_okb (Z.of_nat (List.length E) - 1)) with true
      by (symmetry; apply int_okb_true; unfold int_ok; lia).
    replace (Z.of_nat (List.length E) - 1)%Z with (Z.of_nat (List.length E - 1)) by lia.
    cbn [search_row].
    rewrite (sub_rows _ _ _ _ _ _ _ _ HR), Hs. cbn [option_map row_at Center PadHeight Height].
    destruct (good_nth HR _ _ Hs) as (H1&H2&H3&H4&H5&H6&H7&H8).
    assert (Hb : bottom y0 E (List.length E - 1) = y0 + heights E - s_h s).
    { rewrite <- bottom_all. replace (List.length E) with (S (List.length E - 1)) at 2 by lia.
      rewrite (bottom_S _ _ _ _ Hs). lra. }
    rewrite Hb.
    replace (y0 + heights E - (y0 + heights E - s_h s + s_h s / 2)) with (s_h s / 2) by lra.
    rewrite (Rabs_pos_eq (s_h s / 2)) by lra.
    destruct (Rleb_spec (s_h s / 2) (s_padH s / 2)); [lra|].
    destruct (Rleb_spec (s_h s / 2) (s_h s / 2)); [|lra].
    destruct (Rltb_spec (s_h s / 2) 0); [lra|].
    replace (Z.of_nat (List.length E - 1) + 1)%Z with (Z.of_nat (List.length E)) by lia.
    rewrite (sub_rows _ _ _ _ _ _ _ _ HR).
    rewrite (proj2 (nth_error_None E (List.length E))) by lia. reflexivity.
  Qed.
End Low.

(** ** a layout on which the search never ends *)
Definition srow1 (h : R) : srow := mkS 1 1 h h 0 0.
Definition hang_calls : list rect_call :=
  [CAdd (mkAdd 4 1 1 1 0 0 0); CAdd (mkAdd 1 1 1 10 0 0 0); CAdd (mkAdd 2 1 1 1 0 0 0)].
Definition hang_rows : list srow :=
  [srow1 1; srow1 1; srow1 1; srow1 1; srow1 10; srow1 1; srow1 1].

Lemma hang_legal : Forall legal_call hang_calls.
Proof. unfold hang_calls. repeat constructor; simpl; lra. Qed.
Lemma hang_expected : expected 0 1 hang_calls = (hang_rows, false).
Proof.
  unfold expected, hang_calls. cbn [fold_left].
  unfold expect1 at 3. rewrite if_wf by (unfold width_fits; simpl; lra).
  unfold srow_of. cbn [a_nPad a_padWidth a_padHeight a_left a_right].
  rewrite asked_z by reflexivity. cbn [a_padHeight].
  rewrite if_hf by (unfold height_fits; simpl; lra).
  unfold expect1 at 2. rewrite if_wf by (unfold width_fits; simpl; lra).
  unfold srow_of. cbn [a_nPad a_padWidth a_padHeight a_left a_right].
  rewrite asked_z by reflexivity. cbn [a_padHeight].
  rewrite if_hf by (unfold height_fits; simpl; lra).
  unfold expect1 at 1. rewrite if_wf by (unfold width_fits; simpl; lra).
  unfold srow_of. cbn [a_nPad a_padWidth a_padHeight a_left a_right].
  rewrite asked_z by reflexivity. cbn [a_padHeight].
  rewrite if_hf by (unfold height_fits; simpl; lra).
  reflexivity.
Qed.

Lemma hang_built : exists l, built 0 1 0 hang_calls l.
Proof.
  destruct (do_calls_rep 0 1 0 hang_calls _ _ _ _ (rep_new 0 1 0) hang_legal) as [l [Hl _]].
  exists l. split; auto. apply hang_legal.
Qed.

Lemma hang_indexable : indexable hang_rows.
Proof. split; [simpl; lia|]. repeat constructor; simpl; lia. Qed.
Lemma hang_full : full_height hang_rows.
Proof. repeat constructor. Qed.

Lemma Zfloor_val : forall x n, IZR n <= x < IZR n + 1 -> Zfloor x = n.
Proof. intros. apply Zfloor_imp. rewrite plus_IZR. lra. Qed.
Lemma Zceil_val : forall x n, IZR n - 1 < x <= IZR n -> Zceil x = n.
Proof. intros. apply Zceil_imp. rewrite minus_IZR. lra. Qed.

Lemma hang_search : forall l ex rp, rep 0 1 0 hang_rows ex rp l ->
  forall fuel, search_row fuel l 9 3 = None /\ search_row fuel l 9 5 = None.
Proof.
  intros l ex rp HR. 
  assert (Hy : 0 <= 9 <= 0 + heights hang_rows) by (simpl; lra).
  induction fuel as [|fuel [IH3 IH5]]; [auto|].
  split.
  - destruct (search_step HR hang_indexable hang_full 9 Hy fuel 3 (srow1 1) eq_refl)
      as [[Hh _]|[[Hb _]|[Hb (k & Hk & _ & _ & Heq)]]].
    + exfalso. unfold holds_row, bottom in Hh. simpl in Hh. lra.
    + exfalso. unfold bottom in Hb. simpl in Hb. lra.
    + change (Z.of_nat 3) with 3%Z in *. rewrite Heq.
      assert (Hz : Zceil (INR (Datatypes.length hang_rows - 3 - 1) *
          ((9 - bottom 0 hang_rows 4) / (0 + heights hang_rows - bottom 0 hang_rows 4))) = 2%Z).
      { apply Zceil_val. unfold bottom. simpl. lra. }
      rewrite Hz in Hk. rewrite Hk. exact IH5.
  - destruct (search_step HR hang_indexable hang_full 9 Hy fuel 5 (srow1 1) eq_refl)
      as [[Hh _]|[[Hb (k & Hk & _ & Heq)]|[Hb _]]].
    + exfalso. unfold holds_row, bottom in Hh. simpl in Hh. lra.
    + change (Z.of_nat 5) with 5%Z in *. rewrite Heq.
      assert (Hz : Zfloor (INR 5 * ((9 - bottom 0 hang_rows 5) / (bottom 0 hang_rows 5 - 0))) = (-2)%Z).
      { apply Zfloor_val. unfold bottom. simpl. lra. }
      rewrite Hz in Hk. rewrite Hk. exact IH3.
    + exfalso. unfold bottom in Hb. simpl in Hb. lra.
Qed.

Lemma hang_nearest : forall l, built 0 1 0 hang_calls l ->
  forall fuel x, getNearestPad fuel l x 9 = None.
Proof.
  intros l Hb fuel x. pose proof (built_rep _ _ _ _ _ Hb) as HR.
  unfold expected_rows in HR. rewrite hang_expected in HR. simpl fst in HR. simpl snd in HR.
  destruct (hang_search _ _ _ HR fuel) as [H3 _].
  unfold getNearestPad. rewrite (rep_e3 _ _ _ _ _ _ _ HR), (rep_e2 _ _ _ _ _ _ _ HR), (lenE HR).
  destruct (Reqb_spec (0 + heights hang_rows - 0) 0) as [Hz|Hz]; [simpl in Hz; lra|].
  rewrite (clampR_eq 0 (0 + heights hang_rows)) by (simpl; lra).
  replace (clampR 0 (0 + heights hang_rows) 9) with 9
    by (unfold clampR, Rmax, Rmin; simpl; repeat destruct Rle_dec; lra).
  replace (c_round _) with 3%Z.
  - change (int_okb 3) with true. cbn iota. now rewrite H3.
  - symmetry. unfold c_round. apply Znearest_imp. simpl.
    apply Rabs_lt. lra.
Qed.

(** ** getPadsInRow *)
Lemma indices_ok : forall x0 x1 y0 E ex rp l, rep x0 x1 y0 E ex rp l -> indexable E ->
  forall i s, nth_error E i = Some s -> forall k j, (0 <= j)%Z -> (j + Z.of_nat k <= s_n s)%Z ->
  indices_from l (Z.of_nat i) k j = Ok (map (fun n => code (Z.of_nat i) (j + n)) (upto k)).
Proof.
  intros x0 x1 y0 E ex rp l HR HI i s Hs k. induction k; intros j Hj Hk; [reflexivity|].
  cbn [indices_from]. rewrite (getPadIndex_code HR HI _ _ _ Hs) by lia. cbn [rbind].
  rewrite IHk by lia. cbn [rmap]. unfold upto. cbn [seq map]. f_equal. f_equal.
  - f_equal. lia.
  - rewrite <- seq_shift, !map_map. apply map_ext. intros a. f_equal. lia.
Qed.

Lemma raws_eq : forall r k j, (0 <= r < 65536)%Z -> (0 <= j)%Z -> (j + Z.of_nat k <= 65536)%Z ->
  raws r k j = map (fun n => code r (j + n)) (upto k).
Proof.
  intros r k. induction k; intros j Hr Hj Hk; [reflexivity|].
  cbn [raws]. rewrite IHk by lia. unfold upto. cbn [seq map]. f_equal.
  - rewrite raw_code by lia. f_equal. lia.
  - rewrite <- seq_shift, !map_map. apply map_ext. intros a. f_equal. lia.
Qed.

Lemma pads_in_row_exact : forall x0 x1 y0 E ex rp l r, rep x0 x1 y0 E ex rp l -> indexable E ->
  exists l' v, getPadsInRow l r = SOk l' v /\
    (forall i s, r = Z.of_nat i -> nth_error E i = Some s -> v = map (code r) (upto (Z.to_nat (s_n s)))) /\
    ((r < 0 \/ Z.of_nat (List.length E) <= r)%Z -> v = []).
Proof.
  intros x0 x1 y0 E ex rp l r HR HI. unfold getPadsInRow.
  destruct (Z.lt_ge_cases r 0) as [Hneg|Hr0].
  { unfold nthZ. replace (r <? 0)%Z with true by (symmetry; apply Z.ltb_lt; lia).
    do 2 eexists; split; [reflexivity|]. split; auto. intros; lia. }
  destruct (Z.lt_ge_cases r (Z.of_nat (List.length E))) as [Hr1|Hr1].
  2:{ unfold nthZ. replace (r <? 0)%Z with false by (symmetry; apply Z.ltb_ge; lia).
      rewrite (proj2 (nth_error_None (_padIndices l) (Z.to_nat r))).
      - do 2 eexists; split; [reflexivity|]. split; auto. intros i s Hi Hs.
        assert (i < List.length E)%nat by (apply nth_error_Some; congruence). lia.
      - rewrite (rep_clen _ _ _ _ _ _ _ HR). lia. }
  set (i := Z.to_nat r). assert (Hri : r = Z.of_nat i) by (unfold i; lia). clearbody i. subst r.
  rewrite nthZ_of_nat. 
  destruct (nth_error E i) as [s|] eqn:Hs; [|apply nth_error_None in Hs; lia].
  destruct (row_range HR HI _ _ Hs) as (Ha & Hb & Hc).
  destruct (nth_error (_padIndices l) i) as [[v|]|] eqn:Ec.
  - do 2 eexists; split; [reflexivity|]. split; [|intros; lia].
    intros i' s' Hi' Hs'. assert (i' = i) by lia. subst i'. rewrite Hs in Hs'. inversion Hs'; subst s'.
    destruct (rep_cache _ _ _ _ _ _ _ HR _ _ Ec) as [s' [Hs'' Hv]]. rewrite Hs in Hs''. inversion Hs''; subst s'.
    rewrite Hv, raws_eq by lia. apply map_ext. intros; f_equal; lia.
  - rewrite (sub_rows _ _ _ _ _ _ _ _ HR), Hs. cbn [option_map row_at NPad].
    rewrite (indices_ok _ _ _ _ _ _ _ HR HI _ _ Hs) by lia.
    do 2 eexists; split; [reflexivity|]. split; [|intros; lia].
    intros i' s' Hi' Hs'. assert (i' = i) by lia. subst i'. rewrite Hs in Hs'. inversion Hs'; subst s'.
    apply map_ext. intros; f_equal; lia.
  - apply nth_error_None in Ec. rewrite (rep_clen _ _ _ _ _ _ _ HR) in Ec. lia.
Qed.

Lemma clone_pads_empty : forall x0 x1 y0 E ex rp l r, rep x0 x1 y0 E ex rp l ->
  getPadsInRow (clone l) r = SOk (clone l) [].
Proof.
  intros. unfold getPadsInRow, clone. cbn [_padIndices]. rewrite (rep_nrow _ _ _ _ _ _ _ H).
  simpl. unfold nthZ. destruct (r <? 0)%Z; auto. destruct (Z.to_nat r); auto.
Qed.

(** all other queries of a clone *)
Lemma search_clone : forall fuel l y r, search_row fuel (clone l) y r = search_row fuel l y r.
Proof.
  induction fuel; intros; [reflexivity|]. cbn [search_row]. cbn [clone _rows ext2 ext3].
  destruct (nthZ (_rows l) r); auto. 
  repeat match goal with |- context[if ?b then _ else _] => destruct b; auto end.
Qed.

(** ** repetition *)
Lemma nth_concat_repeat : forall A (E : list A) n m i, (m < n)%nat -> (i < List.length E)%nat ->
  nth_error (List.concat (repeat E n)) (m * List.length E + i) = nth_error E i.
Proof.
  intros A E n. induction n; intros m i Hm Hi; [lia|]. simpl.
  destruct m; simpl.
  - now rewrite nth_error_app1.
  - rewrite nth_error_app2 by lia.
    replace (List.length E + m * List.length E + i - List.length E)%nat with (m * List.length E + i)%nat by lia.
    apply IHn; lia.
Qed.
Lemma len_concat_repeat : forall A (E : list A) n, List.length (List.concat (repeat E n)) = (n * List.length E)%nat.
Proof. intros. induction n; simpl; auto. rewrite app_length, IHn. lia. Qed.
Lemma heights_concat_repeat : forall E n, heights (List.concat (repeat E n)) = INR n * heights E.
Proof. intros. induction n; [simpl; lra|]. rewrite S_INR. simpl. rewrite heights_app, IHn. lra. Qed.
Lemma bottom_concat_repeat : forall y0 E n m i, (m < n)%nat -> (i <= List.length E)%nat ->
  bottom y0 (List.concat (repeat E n)) (m * List.length E + i) = bottom y0 E i + INR m * heights E.
Proof.
  intros y0 E n. unfold bottom. induction n; intros m i Hm Hi; [lia|]. simpl repeat. simpl List.concat.
  destruct m.
  - simpl. rewrite firstn_app. replace (i - List.length E)%nat with 0%nat by lia. simpl. rewrite app_nil_r. lra.
  - rewrite S_INR. replace (S m * List.length E + i)%nat with (List.length E + (m * List.length E + i))%nat by lia.
    rewrite firstn_app_2, heights_app.
    specialize (IHn m i ltac:(lia) Hi). lra.
Qed.
