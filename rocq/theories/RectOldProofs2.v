(** Consequences for getNearestPadOld: pads found from their centres, agreement with getNearestPad, and where
    they differ. *)
From Coq Require Import ZArith List String Bool Reals Lra Lia.
From Verif Require Import Base RBase ListExtra RectModel RectOldModel RectSpec RectOldSpec RectProofs RectProofs2 RectProofs3
  RectProofs4 RectProofs5 RectProofs6 RectOldProofs.
Import ListNotations.
Open Scope R_scope.

Lemma dist2_0 : forall x y p q, dist2 x y p q = 0 -> x = p /\ y = q.
Proof.
  intros x y p q H. unfold dist2 in H.
  pose proof (Rle_0_sqr (x - p)) as A. pose proof (Rle_0_sqr (y - q)) as B. unfold Rsqr in *.
  apply sqrt_eq_0 in H; [|lra].
  assert (Q1 : (x - p) * (x - p) = 0) by lra. assert (Q2 : (y - q) * (y - q) = 0) by lra.
  apply Rmult_integral in Q1. apply Rmult_integral in Q2. split; lra.
Qed.

Lemma clampR_in : forall lo hi v, lo <= v <= hi -> clampR lo hi v = v.
Proof. intros. unfold clampR, Rmax, Rmin. repeat destruct Rle_dec; lra. Qed.

(** Above or below a box only the height counts. *)
Lemma box_dist_gap : forall x y xmin ymin xmax ymax, xmin <= x <= xmax -> ymin <= ymax ->
  is_box_dist x y xmin ymin xmax ymax (Rabs (y - clampR ymin ymax y)).
Proof.
  intros x y xmin ymin xmax ymax Hx Hy.
  assert (Hq : forall a, sqrt (0 * 0 + a * a) = Rabs a).
  { intros a. rewrite Rmult_0_l, Rplus_0_l. replace (a * a) with (Rsqr a) by reflexivity. apply sqrt_Rsqr_abs. }
  split.
  - exists x, (clampR ymin ymax y). split; [exact Hx|]. split; [apply clampR_range; exact Hy|].
    unfold dist2. rewrite Rminus_diag_eq by reflexivity. apply Hq.
  - intros px py Hpx Hpy. unfold dist2. rewrite <- Hq. apply sqrt_le_1_alt.
    pose proof (Rle_0_sqr (x - px)) as A. unfold Rsqr in A.
    assert (B : (y - clampR ymin ymax y) * (y - clampR ymin ymax y) <= (y - py) * (y - py)).
    { apply Rsqr_le_abs_1. unfold clampR, Rmax, Rmin. repeat destruct Rle_dec; unfold Rabs; repeat destruct Rcase_abs; lra. }
    lra.
Qed.

Lemma rect_old : forall x0 x1 y0 h l, built x0 x1 y0 h l ->
  let E := expected_rows x0 x1 h in indexable E -> E <> [] ->
  forall x y, let px := clampR x0 x1 x in let py := clampR y0 (y0 + heights E) y in
  exists i s j p, getNearestPadOld l x y = Ok p /\ getPadIndex l (Z.of_nat i) j = Ok p /\
    nth_error E i = Some s /\ pad_across x0 x1 s px j /\
    ((exists d, row_dist x0 x1 y0 E i s px py d /\ (d = 0 \/ d < 2 * heights E) /\
        forall k t dk, nth_error E k = Some t -> row_dist x0 x1 y0 E k t px py dk ->
          d <= dk /\ ((k < i)%nat -> d < dk)) \/
     (i = 0%nat /\ forall k t dk, nth_error E k = Some t -> row_dist x0 x1 y0 E k t px py dk ->
          0 < dk /\ 2 * heights E <= dk)).
Proof.
  intros x0 x1 y0 h l Hb E HI Hne x y px py. pose proof (built_rep _ _ _ _ _ Hb) as HR. fold E in HR.
  destruct (old_ok HR HI x y Hne) as (i & s & j & p & H1 & H2 & H3 & H4 & H5 & _).
  exists i, s, j, p. split; [exact H1|]. split; [exact H2|]. split; [exact H3|]. split; [exact H4|exact H5].
Qed.

Lemma rect_old_empty : forall x0 x1 y0 h l, built x0 x1 y0 h l -> expected_rows x0 x1 h = [] ->
  forall x y, getNearestPadOld l x y = UB.
Proof.
  intros x0 x1 y0 h l Hb He x y. pose proof (built_rep _ _ _ _ _ Hb) as HR. rewrite He in HR.
  unfold getNearestPadOld. rewrite (rep_rows _ _ _ _ _ _ _ HR). reflexivity.
Qed.

Lemma rect_old_own : forall x0 x1 y0 h l, built x0 x1 y0 h l ->
  let E := expected_rows x0 x1 h in indexable E ->
  forall i s j p, nth_error E i = Some s -> (0 <= j < s_n s)%Z -> getPadIndex l (Z.of_nat i) j = Ok p ->
  0 < s_h s -> (s_n s = 1%Z \/ 0 < pitch x0 x1 s) ->
  exists cx cy, getPadCenter l p = Ok (cx, cy) /\ getNearestPadOld l cx cy = Ok p.
Proof.
  intros x0 x1 y0 h l Hb E HI i s j p Hs Hj Hp Hh Hpi. pose proof (built_rep _ _ _ _ _ Hb) as HR. fold E in HR.
  destruct (c08_pad HR HI i s j Hs Hj) as (Hc & _ & _ & _ & _ & _ & Hce). cbv zeta in *.
  rewrite Hc in Hp. injection Hp as <-.
  destruct (good_nth HR _ _ Hs) as (G1&G2&G3&G4&G5&G6&G7&G8). unfold height_fits in G8.
  destruct (pitch_nonneg HR _ _ Hs) as (P1 & P2 & P3). pose proof (width_ok HR _ _ Hs) as Hw.
  destruct (cell_inside HR _ _ _ Hs Hj) as (C1 & C2 & C3).
  set (cx := cell_left x0 x1 s j + pitch x0 x1 s / 2) in *. set (cy := bottom y0 E i + s_h s / 2) in *.
  exists cx, cy. split; [exact Hce|].
  assert (Hne : E <> []) by (intros Q; rewrite Q in Hs; destruct i; discriminate).
  destruct (old_ok HR HI cx cy Hne) as (i' & s' & j' & p' & H1 & H2 & H3 & H4 & H5 & _).
  pose proof (hnn HR) as Hn.
  assert (Hlen : (i < List.length E)%nat) by (apply nth_error_Some; congruence).
  assert (B0 : y0 <= bottom y0 E i). { pose proof (bottom_mono y0 E 0 i Hn ltac:(lia)) as Q. rewrite bottom_0 in Q. exact Q. }
  assert (B1 : bottom y0 E i + s_h s <= y0 + heights E).
  { pose proof (bottom_mono y0 E (S i) (List.length E) Hn ltac:(lia)) as Q. rewrite bottom_all, (bottom_S _ _ _ _ Hs) in Q. exact Q. }
  assert (Kx : clampR x0 x1 cx = cx) by (apply clampR_in; unfold cx; lra).
  assert (Ky : clampR y0 (y0 + heights E) cy = cy) by (apply clampR_in; unfold cy; lra).
  rewrite Kx, Ky in *.
  assert (D0 : row_dist x0 x1 y0 E i s cx cy 0).
  { unfold row_dist. cbv zeta. fold cy.
    replace 0 with (Rabs (cy - clampR (cy - s_padH s / 2) (cy + s_padH s / 2) cy)).
    - apply box_dist_gap; [unfold cx; lra|lra].
    - rewrite clampR_in by lra. rewrite Rminus_diag_eq by reflexivity. apply Rabs_R0. }
  assert (Ei : i' = i).
  { destruct H5 as [(d & F1 & F2 & F3)|(_ & F)].
    - destruct (F3 i s 0 Hs D0) as [F4 _].
      assert (Ed : d = 0).
      { destruct F1 as [(u & v & _ & _ & Fd) _]. unfold dist2 in Fd. pose proof (sqrt_pos ((cx - u) * (cx - u) + (cy - v) * (cy - v))). lra. }
      subst d. destruct F1 as [(u & v & Fu & Fv & Fd) _]. apply dist2_0 in Fd. destruct Fd as [_ <-].
      destruct (good_nth HR _ _ H3) as (K1&K2&K3&K4&K5&K6&K7&K8). unfold height_fits in K8.
      destruct (Nat.lt_trichotomy i' i) as [L|[L|L]]; [exfalso| exact L | exfalso].
      + pose proof (bottom_mono y0 E (S i') i Hn ltac:(lia)) as Q. rewrite (bottom_S _ _ _ _ H3) in Q. unfold cy in Fv. lra.
      + pose proof (bottom_mono y0 E (S i) i' Hn ltac:(lia)) as Q. rewrite (bottom_S _ _ _ _ Hs) in Q. unfold cy in Fv. lra.
    - destruct (F i s 0 Hs D0) as [F1 _]. lra. }
  subst i'. assert (s' = s) by congruence. subst s'.
  assert (Ej : j' = j).
  { destruct H4 as (J1 & J2 & J3 & J4). destruct Hpi as [Hone|Hpi]; [lia|].
    specialize (J4 ltac:(unfold cx; lra)). unfold cx, cell_left in J4.
    assert (Q : forall a b, IZR a * pitch x0 x1 s < (IZR b + 1) * pitch x0 x1 s -> (a <= b)%Z).
    { intros a b Q. apply Rmult_lt_reg_r in Q; [|exact Hpi]. rewrite <- plus_IZR in Q. apply lt_IZR in Q. lia. }
    assert (j' <= j)%Z by (apply Q; lra). assert (j <= j')%Z by (apply Q; lra). lia. }
  subst j'. rewrite H1. f_equal. congruence.
Qed.

Lemma rect_old_agrees : forall x0 x1 y0 h l, built x0 x1 y0 h l ->
  let E := expected_rows x0 x1 h in indexable E -> 0 < heights E -> x0 < x1 ->
  Forall (fun s => s_left s = 0 /\ s_right s = 0) E ->
  forall x y i s, nth_error E i = Some s ->
  let py := clampR y0 (y0 + heights E) y in
  (forall k t, nth_error E k = Some t -> k <> i -> metal_gap y0 E i s py < metal_gap y0 E k t py) ->
  forall fuel p, getNearestPad fuel l x y = Some (Ok p) -> getNearestPadOld l x y = Ok p.
Proof.
  intros x0 x1 y0 h l Hb E HI Hpos Hx HO x y i s Hs py Hu fuel p Hr.
  pose proof (built_rep _ _ _ _ _ Hb) as HR. fold E in HR.
  assert (Hne : E <> []) by (intros Q; rewrite Q in Hs; destruct i; discriminate).
  destruct (old_ok HR HI x y Hne) as (i' & s' & j' & p' & H1 & H2 & H3 & H4 & H5 & H6). fold py in H5.
  assert (Hoff : forall k t, nth_error E k = Some t -> s_left t = 0 /\ s_right t = 0).
  { intros k t Ht. rewrite Forall_forall in HO. apply HO. eapply nth_error_In; eauto. }
  assert (Hpx : x0 <= clampR x0 x1 x <= x1) by (apply clampR_range; lra).
  assert (Hpy : y0 <= py <= y0 + heights E) by (apply clampR_range; lra).
  assert (Hd : forall k t, nth_error E k = Some t -> row_dist x0 x1 y0 E k t (clampR x0 x1 x) py (metal_gap y0 E k t py)).
  { intros k t Ht. unfold row_dist, metal_gap. cbv zeta. destruct (Hoff k t Ht) as [-> ->].
    destruct (good_nth HR _ _ Ht) as (G1&G2&G3&_). apply box_dist_gap; lra. }
  assert (Ei : i' = i).
  { destruct (Nat.eq_dec i' i) as [|Hn]; [assumption|exfalso].
    destruct H5 as [(d & F1 & F2 & F3)|(_ & F)].
    - destruct (F3 i s _ Hs (Hd _ _ Hs)) as [F4 _]. pose proof (Hu i' s' H3 Hn) as F5.
      pose proof (box_dist_unique _ _ _ _ _ _ _ _ F1 (Hd _ _ H3)) as F6. lra.
    - destruct (F i s _ Hs (Hd _ _ Hs)) as [F1 F2].
      destruct (good_nth HR _ _ Hs) as (G1&G2&G3&G4&G5&G6&G7&G8). unfold height_fits in G8.
      pose proof (hnn HR) as Hn'. assert (Hlen : (i < List.length E)%nat) by (apply nth_error_Some; congruence).
      assert (B0 : y0 <= bottom y0 E i). { pose proof (bottom_mono y0 E 0 i Hn' ltac:(lia)) as Q. rewrite bottom_0 in Q. exact Q. }
      assert (B1 : bottom y0 E i + s_h s <= y0 + heights E).
      { pose proof (bottom_mono y0 E (S i) (List.length E) Hn' ltac:(lia)) as Q. rewrite bottom_all, (bottom_S _ _ _ _ Hs) in Q. exact Q. }
      unfold metal_gap in F2. cbv zeta in F2. set (mid := bottom y0 E i + s_h s / 2) in *.
      assert (C : mid - s_padH s / 2 <= clampR (mid - s_padH s / 2) (mid + s_padH s / 2) py <= mid + s_padH s / 2) by (apply clampR_range; lra).
      assert (Em : mid = bottom y0 E i + s_h s / 2) by reflexivity. clearbody mid.
      set (c := clampR _ _ _) in *. unfold Rabs in F2. destruct Rcase_abs in F2; lra. }
  subst i'. assert (s' = s) by congruence. subst s'.
  destruct (nearest_unfold HR HI Hpos fuel x y) as (i0 & Hi0 & Hy & Heq). cbv zeta in *. fold py in Heq, Hy.
  rewrite Heq in Hr. destruct (search_row fuel l py (Z.of_nat i0)) as [[rn|e|]|] eqn:Es; try discriminate.
  destruct (search_low HR _ Hy _ _ _ Es) as [k [-> [t [Ht Hn]]]].
  assert (Ek : k = i).
  { destruct (Nat.eq_dec k i) as [|Hk]; [assumption|exfalso]. pose proof (Hu k t Ht Hk). pose proof (Hn i s Hs). lra. }
  subst k. assert (t = s) by congruence. subst t.
  rewrite (sub_row HR _ _ Hs) in Hr. cbn [rbind] in Hr.
  destruct (pitch_nonneg HR _ _ Hs) as (P1 & P2 & P3). destruct (Hoff _ _ Hs) as [Q1 Q2]. rewrite Q1, Q2 in P3.
  assert (Hpp : 0 < pitch x0 x1 s). { destruct P1 as [|P1]; [assumption|]. rewrite <- P1 in P3. lra. }
  rewrite (H6 Hpp) in Hr. cbn [rbind] in Hr. rewrite H2 in Hr. injection Hr as <-. exact H1.
Qed.
