(** Proofs about RectangularPadRowLayout::getNearestPad for pads lower than their rows. *)
From Coq Require Import ZArith List String Bool Reals Lra Lia.
From Flocq Require Import Core.Raux Core.Generic_fmt.
From Verif Require Import Base RBase ListExtra BitProofs RectModel RectSpec RectProofs RectProofs2 RectProofs3 RectProofs4 RectProofs5.
Import ListNotations.
Open Scope R_scope.

Lemma gap_eq : forall y0 E i s y, 0 <= s_padH s ->
  metal_gap y0 E i s y = Rmax 0 (Rabs (y - (bottom y0 E i + s_h s / 2)) - s_padH s / 2).
Proof.
  intros y0 E i s y H. unfold metal_gap, clampR, Rmax, Rmin, Rabs. cbv zeta. repeat destruct Rle_dec; repeat destruct Rcase_abs; lra.
Qed.
Lemma gap_above : forall y0 E i s y, 0 <= s_padH s -> bottom y0 E i + s_h s / 2 + s_padH s / 2 <= y ->
  metal_gap y0 E i s y = y - (bottom y0 E i + s_h s / 2) - s_padH s / 2.
Proof. intros y0 E i s y H L. rewrite gap_eq by exact H. unfold Rmax, Rabs. repeat destruct Rle_dec; repeat destruct Rcase_abs; lra. Qed.
Lemma gap_below : forall y0 E i s y, 0 <= s_padH s -> y <= bottom y0 E i + s_h s / 2 - s_padH s / 2 ->
  metal_gap y0 E i s y = bottom y0 E i + s_h s / 2 - s_padH s / 2 - y.
Proof. intros y0 E i s y H L. rewrite gap_eq by exact H. unfold Rmax, Rabs. repeat destruct Rle_dec; repeat destruct Rcase_abs; lra. Qed.
Lemma gap_pos : forall y0 E i s y, 0 <= metal_gap y0 E i s y.
Proof. intros. unfold metal_gap. apply Rabs_pos. Qed.

Section Low.
  Context {x0 x1 y0 : R} {E : list srow} {ex : Z} {rp : bool} {l : rect}.
  Hypothesis HR : rep x0 x1 y0 E ex rp l.
  Variable y : R.
  Hypothesis Hy : y0 <= y <= y0 + heights E.

  Definition nearest_row (k : nat) : Prop := exists s, nth_error E k = Some s /\
    forall k' s', nth_error E k' = Some s' -> metal_gap y0 E k s y <= metal_gap y0 E k' s' y.

  Lemma row_good : forall i s, nth_error E i = Some s -> 0 <= s_padH s /\ 0 <= s_h s /\ s_padH s <= s_h s /\ bottom y0 E (S i) = bottom y0 E i + s_h s.
  Proof.
    intros i s Hs. destruct (good_nth HR _ _ Hs) as (_&_&A&B&_&_&_&C). unfold height_fits in C.
    repeat split; auto. apply bottom_S. exact Hs.
  Qed.
  Lemma row_below : forall i s j s', nth_error E i = Some s -> nth_error E j = Some s' -> (i < j)%nat -> bottom y0 E i + s_h s <= bottom y0 E j.
  Proof.
    intros i s j s' Hs Hs' L. destruct (row_good i s Hs) as (_&_&_&<-). apply bottom_mono; [exact (hnn HR)|lia].
  Qed.

  (** the row or the next one is the nearest of all *)
  Lemma lower_gap : forall i s s', nth_error E (S i) = Some s -> nth_error E i = Some s' ->
    bottom y0 E (S i) <= y < bottom y0 E (S i) + s_h s / 2 - s_padH s / 2 ->
    nearest_row (if Rltb (metal_gap y0 E i s' y) (metal_gap y0 E (S i) s y) then i else S i).
  Proof.
    intros i s s' Hs Hs' R0. destruct (row_good _ _ Hs) as (A&B&C&D). destruct (row_good _ _ Hs') as (A'&B'&C'&D').
    assert (G : forall k' s'', nth_error E k' = Some s'' -> Rmin (metal_gap y0 E i s' y) (metal_gap y0 E (S i) s y) <= metal_gap y0 E k' s'' y).
    { intros k' s'' Hk. destruct (row_good _ _ Hk) as (A2&B2&C2&D2).
      destruct (Nat.lt_trichotomy k' i) as [L|[->|L]].
      - pose proof (row_below _ _ _ _ Hk Hs' L). eapply Rle_trans; [apply Rmin_l|]. rewrite !gap_above by lra. lra.
      - assert (s'' = s') by congruence. subst. apply Rmin_l.
      - destruct (Nat.eq_dec k' (S i)) as [->|Ne]; [assert (s'' = s) by congruence; subst; apply Rmin_r|].
        pose proof (row_below _ _ _ _ Hs Hk ltac:(lia)). eapply Rle_trans; [apply Rmin_r|]. rewrite !gap_below by lra. lra. }
    destruct (Rltb_spec (metal_gap y0 E i s' y) (metal_gap y0 E (S i) s y)); [exists s'|exists s]; (split; [assumption|]); intros k' s'' Hk;
      specialize (G k' s'' Hk); unfold Rmin in G; destruct Rle_dec in G; lra.
  Qed.
  Lemma upper_gap : forall i s s', nth_error E i = Some s -> nth_error E (S i) = Some s' ->
    bottom y0 E i + s_h s / 2 + s_padH s / 2 < y <= bottom y0 E (S i) ->
    nearest_row (if Rltb (metal_gap y0 E (S i) s' y) (metal_gap y0 E i s y) then S i else i).
  Proof.
    intros i s s' Hs Hs' R0. destruct (row_good _ _ Hs) as (A&B&C&D). destruct (row_good _ _ Hs') as (A'&B'&C'&D').
    assert (G : forall k' s'', nth_error E k' = Some s'' -> Rmin (metal_gap y0 E (S i) s' y) (metal_gap y0 E i s y) <= metal_gap y0 E k' s'' y).
    { intros k' s'' Hk. destruct (row_good _ _ Hk) as (A2&B2&C2&D2).
      destruct (Nat.lt_trichotomy k' i) as [L|[->|L]].
      - pose proof (row_below _ _ _ _ Hk Hs L). eapply Rle_trans; [apply Rmin_r|]. rewrite !gap_above by lra. lra.
      - assert (s'' = s) by congruence. subst. apply Rmin_r.
      - destruct (Nat.eq_dec k' (S i)) as [->|Ne]; [assert (s'' = s') by congruence; subst; apply Rmin_l|].
        pose proof (row_below _ _ _ _ Hs' Hk ltac:(lia)). eapply Rle_trans; [apply Rmin_l|]. rewrite !gap_below by lra. lra. }
    destruct (Rltb_spec (metal_gap y0 E (S i) s' y) (metal_gap y0 E i s y)); [exists s'|exists s]; (split; [assumption|]); intros k' s'' Hk;
      specialize (G k' s'' Hk); unfold Rmin in G; destruct Rle_dec in G; lra.
  Qed.

  Lemma search_low : forall fuel rn r, search_row fuel l y rn = Some (Ok r) -> exists k, r = Z.of_nat k /\ nearest_row k.
  Proof.
    induction fuel; intros rn r H; [discriminate|].
    cbn [search_row] in H. destruct (nthZ (_rows l) rn) as [row|] eqn:Hrow; [|discriminate].
    assert (Hrn : exists i, rn = Z.of_nat i).
    { exists (Z.to_nat rn). unfold nthZ in Hrow. destruct (rn <? 0)%Z eqn:N; [discriminate|]. apply Z.ltb_ge in N. lia. }
    destruct Hrn as [i ->]. rewrite (sub_rows _ _ _ _ _ _ _ _ HR) in Hrow.
    destruct (nth_error E i) as [s|] eqn:Hs; [|discriminate]. cbn [option_map] in Hrow. injection Hrow as <-.
    cbn [row_at Center PadHeight Height] in H. destruct (row_good _ _ Hs) as (A&B&C&D).
    destruct (Rleb_spec (Rabs (y - (bottom y0 E i + s_h s / 2))) (s_padH s / 2)) as [Hin|Hout].
    { injection H as <-. exists i. split; [reflexivity|]. exists s. split; [exact Hs|]. intros k' s' Hk.
      rewrite gap_eq by exact A. rewrite Rmax_left by lra. apply gap_pos. }
    assert (Gi : metal_gap y0 E i s y = Rabs (y - (bottom y0 E i + s_h s / 2)) - s_padH s / 2).
    { rewrite gap_eq by exact A. apply Rmax_right. lra. }
    destruct (Rleb_spec (Rabs (y - (bottom y0 E i + s_h s / 2))) (s_h s / 2)) as [Hin|Hout2].
    - destruct (Rltb_spec (y - (bottom y0 E i + s_h s / 2)) 0) as [Hneg|Hpos].
      + destruct i as [|i]; [cbn in H; discriminate|].
        replace (Z.of_nat (S i) - 1)%Z with (Z.of_nat i) in H by lia. rewrite (sub_rows _ _ _ _ _ _ _ _ HR) in H.
        destruct (nth_error E i) as [s'|] eqn:Hs'; [|discriminate]. cbn [option_map row_at Center PadHeight Height] in H. injection H as <-.
        rewrite <- Gi. destruct (row_good _ _ Hs') as (A'&B'&C'&D').
        unfold Rabs in Hout, Hin. destruct Rcase_abs in Hout; [|lra]. destruct Rcase_abs in Hin; [|lra].
        replace (Rabs (y - (bottom y0 E i + s_h s' / 2)) - s_padH s' / 2) with (metal_gap y0 E i s' y).
        2:{ rewrite gap_above by lra. rewrite Rabs_pos_eq by lra. lra. }
        pose proof (lower_gap i s s' Hs Hs' ltac:(lra)) as LG.
        destruct (Rltb _ _); [exists i|exists (S i)]; (split; [reflexivity|]); exact LG.
      + replace (Z.of_nat i + 1)%Z with (Z.of_nat (S i)) in H by lia. rewrite (sub_rows _ _ _ _ _ _ _ _ HR) in H.
        destruct (nth_error E (S i)) as [s'|] eqn:Hs'; [|discriminate]. cbn [option_map row_at Center PadHeight Height] in H. injection H as <-.
        rewrite <- Gi. destruct (row_good _ _ Hs') as (A'&B'&C'&D').
        rewrite Rabs_pos_eq in Hout, Hin by lra.
        replace (Rabs (y - (bottom y0 E (S i) + s_h s' / 2)) - s_padH s' / 2) with (metal_gap y0 E (S i) s' y).
        2:{ rewrite gap_below by lra. rewrite Rabs_left1 by lra. lra. }
        pose proof (upper_gap i s s' Hs Hs' ltac:(lra)) as LG.
        destruct (Rltb _ _); [exists (S i)|exists i]; (split; [reflexivity|]); exact LG.
    - rewrite (rep_e2 _ _ _ _ _ _ _ HR), (rep_e3 _ _ _ _ _ _ _ HR), (lenE HR) in H.
      destruct (Rltb_spec (y - (bottom y0 E i + s_h s / 2)) 0) as [Hneg|Hpos].
      + assert (Hyb : y < bottom y0 E i) by (rewrite Rabs_left in Hout2 by lra; lra).
        assert (Hi0 : (0 < i)%nat) by (destruct i; [rewrite bottom_0 in Hyb; lra|lia]).
        replace (bottom y0 E i + s_h s / 2 - y0 - s_h s / 2) with (bottom y0 E i - y0) in H by lra.
        replace (y - (bottom y0 E i + s_h s / 2) + s_h s / 2) with (y - bottom y0 E i) in H by lra.
        destruct (Reqb_spec (bottom y0 E i - y0) 0) as [Hz|Hz]; [discriminate|].
        set (p := IZR (Z.of_nat i) * ((y - bottom y0 E i) / (bottom y0 E i - y0))) in *.
        assert (P : p < 0).
        { unfold p. assert (0 < IZR (Z.of_nat i)) by (apply IZR_lt; lia).
          assert ((y - bottom y0 E i) / (bottom y0 E i - y0) < 0).
          { apply Rmult_lt_reg_r with (bottom y0 E i - y0); [lra|]. unfold Rdiv. rewrite Rmult_assoc, Rinv_l by lra. lra. }
          assert (IZR (Z.of_nat i) * ((y - bottom y0 E i) / (bottom y0 E i - y0)) < IZR (Z.of_nat i) * 0) by (apply Rmult_lt_compat_l; lra). lra. }
        rewrite (proj2 (Rltb_true p 0)) in H by exact P.
        destruct (int_okb (Zfloor p)); [|discriminate].
        assert (Zfloor p < 0)%Z by (apply lt_IZR; pose proof (Zfloor_lb p); lra).
        replace (Zfloor p =? 0)%Z with false in H by (symmetry; apply Z.eqb_neq; lia). eapply IHfuel; exact H.
      + assert (Hyb : bottom y0 E (S i) < y) by (rewrite Rabs_pos_eq in Hout2 by lra; lra).
        assert (Hi0 : (S i < List.length E)%nat).
        { assert (i < List.length E)%nat by (apply nth_error_Some; congruence).
          destruct (Nat.eq_dec (S i) (List.length E)) as [He|]; [|lia]. rewrite He, bottom_all in Hyb. lra. }
        replace (y0 + heights E - (bottom y0 E i + s_h s / 2) - s_h s / 2) with (y0 + heights E - bottom y0 E (S i)) in H by lra.
        replace (y - (bottom y0 E i + s_h s / 2) - s_h s / 2) with (y - bottom y0 E (S i)) in H by lra.
        destruct (Reqb_spec (y0 + heights E - bottom y0 E (S i)) 0) as [Hz|Hz]; [discriminate|].
        set (p := IZR (Z.of_nat (List.length E) - Z.of_nat i - 1) * ((y - bottom y0 E (S i)) / (y0 + heights E - bottom y0 E (S i)))) in *.
        assert (P : 0 < p).
        { unfold p. apply Rmult_lt_0_compat; [apply IZR_lt; lia|]. apply Rmult_lt_0_compat; [lra|]. apply Rinv_0_lt_compat. lra. }
        rewrite (proj2 (Rltb_false p 0)) in H by lra.
        destruct (int_okb (Zceil p)); [|discriminate].
        assert (0 < Zceil p)%Z by (apply lt_IZR; pose proof (Zceil_ub p); lra).
        replace (Zceil p =? 0)%Z with false in H by (symmetry; apply Z.eqb_neq; lia). eapply IHfuel; exact H.
  Qed.
End Low.

Lemma rect_nearest_low : forall x0 x1 y0 h l, built x0 x1 y0 h l ->
  let E := expected_rows x0 x1 h in
  indexable E -> 0 < heights E ->
  forall fuel x y p, getNearestPad fuel l x y = Some (Ok p) ->
  exists i s j, getPadIndex l (Z.of_nat i) j = Ok p /\ nth_error E i = Some s /\ pad_across x0 x1 s (clampR x0 x1 x) j /\
    forall i' s', nth_error E i' = Some s' ->
      metal_gap y0 E i s (clampR y0 (y0 + heights E) y) <= metal_gap y0 E i' s' (clampR y0 (y0 + heights E) y).
Proof.
  intros x0 x1 y0 h l Hb E HI Hpos fuel x y p Hr. pose proof (built_rep _ _ _ _ _ Hb) as HR. fold E in HR.
  destruct (nearest_unfold HR HI Hpos fuel x y) as (i & Hi & Hy & Heq). cbv zeta in *.
  rewrite Heq in Hr. destruct (search_row fuel l _ (Z.of_nat i)) as [[rn|e|]|] eqn:Es; try discriminate.
  destruct (search_low HR _ Hy _ _ _ Es) as [k [-> [s [Hs Hn]]]].
  rewrite (sub_row HR _ _ Hs) in Hr. cbn [rbind] in Hr.
  destruct (pad_in_row_ok _ _ _ _ _ _ _ HR HI k s (clampR x0 x1 x) Hs) as (j & Hj & Hjr & Hl & Hr' & Hc).
  rewrite Hj in Hr. cbn [rbind] in Hr. injection Hr as Hr. exists k, s, j. split; [exact Hr|]. split; [exact Hs|]. split; [|exact Hn].
  destruct (cell_inside HR _ _ _ Hs Hjr) as (_ & _ & Hcs).
  destruct (pitch_nonneg HR _ _ Hs) as (Hp & _ & Hn').
  assert (Hw : x0 + s_left s <= x1 - s_right s).
  { assert (0 <= IZR (s_n s)) by (apply IZR_le; lia). pose proof (Rmult_le_pos _ _ H Hp). lra. }
  unfold pad_across. split; [exact Hjr|]. split; [intros; apply Hl; lra|]. split; [intros; apply Hr'; lra|].
  intros Hx. rewrite <- Hcs. apply Hc; auto.
Qed.
