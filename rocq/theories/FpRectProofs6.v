(** The rectangular layout in double arithmetic: getNearestPad with rows of equal height, and the pad centres. *)
From Coq Require Import ZArith List String Bool Reals Lra Lia.
From Flocq Require Import Core Relative.
From Verif Require Import Base RBase ListExtra BitProofs NumModel NumSpec NumProofs FpModel FpSpec FpProofs
  RectModel RectSpec RectProofs RectProofs2 RectProofs3 FpRectModel FpRectSpec FpRectProofs FpRectProofs2 FpRectProofs3 FpRectProofs4 FpRectProofs5.
Import ListNotations.
Open Scope R_scope.

Lemma half_double v : is_double v -> bpow radix2 (-1000) <= Rabs v -> is_double (v / 2).
Proof.
  intros (m & e & -> & A & B) L. destruct (Z.eq_dec e (-1074)) as [->|Ne].
  - exfalso. rewrite Rabs_mult in L. rewrite <- abs_IZR in L. assert (IZR (Z.abs m) <= IZR (2 ^ 53)) by (apply IZR_le; lia).
    change (IZR (2 ^ 53)) with (IZR (Zpower radix2 53)) in H. rewrite (IZR_Zpower radix2 53) in H by lia. change 2 with (IZR radix2) in L. rewrite <- bpow_powerRZ in L. rewrite Rabs_pos_eq in L by apply bpow_ge_0.
    assert (bpow radix2 (-1000) <= bpow radix2 (53 + -1074)).
    { rewrite bpow_plus. eapply Rle_trans; [exact L|]. apply Rmult_le_compat_r; [apply bpow_ge_0|exact H]. }
    apply le_bpow in H0. lia.
  - exists m, (e - 1)%Z. split; [|split; [exact A|lia]]. change 2 with (IZR radix2). rewrite <- !bpow_powerRZ.
    replace e with (e - 1 + 1)%Z at 1 by lia. rewrite bpow_plus. replace (bpow radix2 1) with 2 by reflexivity. change (IZR radix2) with 2. field.
Qed.
Lemma half_exact v : is_double v -> bpow radix2 (-1000) <= Rabs v -> to_double (v / 2) = v / 2.
Proof. intros. now apply rnd_id, half_double. Qed.
Lemma tiny_bpow v : not_tiny v -> bpow radix2 (-500) <= v.
Proof. unfold not_tiny. change 2 with (IZR radix2). now rewrite <- bpow_powerRZ. Qed.
Lemma hh_exact s : is_double (s_h s) -> not_tiny (s_h s) -> hh s = s_h s / 2.
Proof.
  intros D T. apply half_exact; [exact D|]. apply tiny_bpow in T. pose proof (bpow_gt_0 radix2 (-500)). rewrite Rabs_pos_eq by lra.
  eapply Rle_trans; [|exact T]. apply bpow_le. lia.
Qed.

(** ** what getNearestPad does after the row search *)
Lemma nearest_none x0 x1 y0 E rp l : drep x0 x1 y0 E rp l -> y0 <= top_edge y0 E -> x0 <= x1 -> forall fuel x y,
  fsub (top_edge y0 E) y0 <> 0 -> int_okb (dguess l (clampR y0 (top_edge y0 E) y)) = true ->
  dsearch_row fuel l (clampR y0 (top_edge y0 E) y) (dguess l (clampR y0 (top_edge y0 E) y)) = None ->
  dgetNearestPad fuel l x y = None.
Proof.
  intros HR HY HX fuel x y NZ IG S. unfold dgetNearestPad.
  rewrite (dr_e0 _ _ _ _ _ _ HR), (dr_e1 _ _ _ _ _ _ HR), (dr_e2 _ _ _ _ _ _ HR), (dr_e3 _ _ _ _ _ _ HR).
  rewrite !clampR_eq by lra. rewrite (proj2 (Reqb_false _ _) NZ). rewrite IG, S. reflexivity.
Qed.
Lemma nearest_some x0 x1 y0 E rp l : drep x0 x1 y0 E rp l -> y0 <= top_edge y0 E -> x0 <= x1 -> forall fuel x y r,
  fsub (top_edge y0 E) y0 <> 0 -> int_okb (dguess l (clampR y0 (top_edge y0 E) y)) = true ->
  dsearch_row fuel l (clampR y0 (top_edge y0 E) y) (dguess l (clampR y0 (top_edge y0 E) y)) = Some (Ok r) ->
  dgetNearestPad fuel l x y =
    Some (rbind (sub (_rows l) r) (fun row => rbind (dpad_in_row l row (clampR x0 x1 x)) (fun pn => getPadIndex l r pn))).
Proof.
  intros HR HY HX fuel x y r NZ IG S. unfold dgetNearestPad.
  rewrite (dr_e0 _ _ _ _ _ _ HR), (dr_e1 _ _ _ _ _ _ HR), (dr_e2 _ _ _ _ _ _ HR), (dr_e3 _ _ _ _ _ _ HR).
  rewrite !clampR_eq by lra. rewrite (proj2 (Reqb_false _ _) NZ). rewrite IG, S. reflexivity.
Qed.

(** ** rows of equal height *)
Record equal_setup (x0 x1 y0 : R) (h : list rect_call) (l : rect) (E : list srow) (H M : R) (rp : bool) : Prop := {
  es_rep : drep x0 x1 y0 E rp l; es_d0 : is_double x0; es_d1 : is_double x1; es_d2 : is_double y0;
  es_len : (0 < List.length E)%nat; es_n : (Z.of_nat (List.length E) <= 65536)%Z; es_tiny : not_tiny H; es_dH : is_double H;
  es_x : x0 <= x1; es_y : y0 < top_edge y0 E; es_dt : is_double (top_edge y0 E) }.
Lemma equal_setup_ok x0 x1 y0 h l H M : built_d x0 x1 y0 h l -> let E := expected_rows_d x0 x1 h in
  E <> [] -> indexable E -> full_height E -> Forall (sound_row x0 x1) E -> equal_heights H E ->
  within M y0 (y0 + heights E) -> 64 * tol_y (List.length E) M <= H -> exists rp, equal_setup x0 x1 y0 h l E H M rp.
Proof.
  intros HB E NE IX HF HS HU (Y0 & Y1) HT. destruct (built_drep _ _ _ _ _ HB) as (D0 & D1 & D2 & rp & HR). fold E in HR. exists rp.
  pose proof IX as (HN & _).
  assert (exists s t, E = s :: t) as (s & t & EE) by (destruct E; [contradiction|eauto]).
  assert (Hs : nth_error E 0 = Some s) by (rewrite EE; reflexivity).
  pose proof (proj1 (Forall_forall _ _) HU s (nth_error_In _ _ Hs)) as SH. cbn in SH.
  pose proof (proj1 (Forall_forall _ _) HS s (nth_error_In _ _ Hs)) as (RM & _ & TI). rewrite SH in TI.
  pose proof (proj1 (Forall_forall _ _) (dr_good _ _ _ _ _ _ HR) s (nth_error_In _ _ Hs)) as G.
  destruct G as (_ & _ & _ & _ & GL & GR & _ & _ & DH & _). rewrite SH in DH.
  assert (LN : (0 < List.length E)%nat) by (rewrite EE; cbn; lia).
  assert (DT : is_double (top_edge y0 E)) by now apply edge_double.
  split; auto; try lra.
  pose proof (top_near x0 x1 y0 E rp l HR HN D2 M Y0 Y1) as TN. apply Rabs_le_inv in TN.
  pose proof (eq_heights y0 E H HU) as HH. assert (1 <= INR (List.length E)) by (apply (le_INR 1); lia).
  pose proof (eq_pos H TI) as HP. assert (1 * H <= INR (List.length E) * H) by (apply Rmult_le_compat_r; lra).
  assert (MP : 0 <= M) by (eapply Rle_trans; [apply Rabs_pos|exact Y0]). pose proof ulp1_val as U.
  assert (0 <= M * ulp1) by (apply Rmult_le_pos; lra). assert (0 <= INR (List.length E) * (M * ulp1)) by (apply Rmult_le_pos; lra).
  unfold tol_y in HT. replace ((4 * INR (List.length E) + 16) * M * ulp1) with (4 * (INR (List.length E) * (M * ulp1)) + 16 * (M * ulp1)) in HT by ring.
  replace (2 * INR (List.length E) * M * ulp1) with (2 * (INR (List.length E) * (M * ulp1))) in TN by ring. lra.
Qed.
Lemma between_eq y0 E H y i : is_double H -> not_tiny H -> equal_heights H E -> (between_rows y0 E y i <-> between y0 E y i).
Proof.
  intros DH T HU. assert (K : forall j s, nth_error E j = Some s -> hh s = s_h s / 2).
  { intros j s Hs. pose proof (proj1 (Forall_forall _ _) HU s (nth_error_In _ _ Hs)) as SH. cbn in SH. apply hh_exact; rewrite SH; assumption. }
  split; intros (s & s' & A & B & C & D); exists s, s'; (split; [exact A|split; [exact B|]]); unfold row_centre, dcentre, fadd, fsub in *;
    rewrite ?(K _ _ A), ?(K _ _ B) in *; auto.
Qed.

Theorem rect_equal_rows_ends : forall x0 x1 y0 h l H M, built_d x0 x1 y0 h l -> let E := expected_rows_d x0 x1 h in
  E <> [] -> indexable E -> full_height E -> Forall (sound_row x0 x1) E -> equal_heights H E ->
  within M y0 (y0 + heights E) -> 64 * tol_y (List.length E) M <= H ->
  forall x y, is_double x -> is_double y -> let yc := clampR y0 (top_edge y0 E) y in
  ((exists i, between_rows y0 E yc i) -> forall fuel, dgetNearestPad fuel l x y = None) /\
  ((forall i, ~ between_rows y0 E yc i) -> forall fuel, (3 <= fuel)%nat -> dgetNearestPad fuel l x y <> None).
Proof.
  intros x0 x1 y0 h l H M HB E NE IX HF HS HU HM HT x y DX DY yc.
  destruct (equal_setup_ok _ _ _ _ _ _ _ HB NE IX HF HS HU HM HT) as (rp & ES). fold E in ES.
  destruct ES as [HR D0 D1 D2 LN HN TI DH XX YY DT]. destruct HM as (Y0 & Y1).
  pose proof (clampR_range y0 (top_edge y0 E) y ltac:(lra)) as YR. fold yc in YR.
  assert (DYC : is_double yc) by (apply clamp_double; auto).
  pose proof (guess_safe x0 x1 y0 E rp l HR ltac:(lia) yc D2 DT YY YR ltac:(lia)) as GR.
  assert (IG : int_okb (dguess l yc) = true) by (apply int_okb_true; unfold int_ok; lia).
  assert (NZ : fsub (top_edge y0 E) y0 <> 0) by (pose proof (fsub_pos _ _ D2 DT YY); lra).
  assert (GN : exists g, dguess l yc = Z.of_nat g /\ (g < List.length E)%nat) by (exists (Z.to_nat (dguess l yc)); lia).
  destruct GN as (g & GE & GL). split.
  - intros (i & Bi) fuel. apply (nearest_none x0 x1 y0 E rp l HR ltac:(lra) XX); auto.
    change (dsearch_row fuel l yc (dguess l yc) = None). rewrite GE.
    apply (hangs x0 x1 y0 E rp l HR HF HN D2 H HU TI M Y0 Y1 HT yc i DYC YR); auto. now apply (between_eq y0 E H).
  - intros NB fuel Hf. destruct fuel as [|[|[|f]]]; try lia.
    destruct (ends x0 x1 y0 E rp l HR HF HN D2 H HU TI M Y0 Y1 HT yc g f DYC YR) as (j & J & SJ); auto.
    { intros k Bk. apply (NB k). now apply (between_eq y0 E H). }
    rewrite (nearest_some x0 x1 y0 E rp l HR ltac:(lra) XX _ x y (Z.of_nat j) NZ); [discriminate|exact IG|].
    change (dsearch_row (S (S (S f))) l yc (dguess l yc) = Some (Ok (Z.of_nat j))). rewrite GE. exact SJ.
Qed.

(** ** sizes that need no rounding *)
Lemma scaled_double z k : (-1074 <= k)%Z -> (Z.abs z < 2 ^ 53)%Z -> is_double (IZR z * powerRZ 2 k).
Proof. intros K Z. exists z, k. auto. Qed.
Lemma exact_edges y0 E H a b k : equal_heights H E -> (-1074 <= k)%Z -> y0 = IZR a * powerRZ 2 k -> H = IZR (2 * b) * powerRZ 2 k ->
  (Z.abs a + Z.of_nat (List.length E) * Z.abs (2 * b) < 2 ^ 53)%Z -> forall i, (i <= List.length E)%nat ->
  edge y0 E i = IZR (a + Z.of_nat i * (2 * b)) * powerRZ 2 k.
Proof.
  intros HU K A B L. induction i; intros Hi; [rewrite edge_0, A; f_equal; f_equal; lia|].
  destruct (nth_error E i) as [s|] eqn:Es; [|apply nth_error_None in Es; lia].
  rewrite (edge_S _ _ _ _ Es), IHi by lia.
  pose proof (proj1 (Forall_forall _ _) HU s (nth_error_In _ _ Es)) as SH. cbn in SH. rewrite SH, B. unfold fadd.
  rewrite <- Rmult_plus_distr_r, <- plus_IZR. replace (a + Z.of_nat i * (2 * b) + 2 * b)%Z with (a + Z.of_nat (S i) * (2 * b))%Z by lia.
  apply rnd_id, scaled_double; [exact K|]. nia.
Qed.
Lemma exact_between y0 E H y : equal_heights H E -> no_rounding y0 H (List.length E) -> forall i, ~ between_rows y0 E y i.
Proof.
  intros HU (a & b & k & K & A & B & L) i (s & s' & H1 & H2 & H3 & H4).
  assert (Hi : (S i < List.length E)%nat) by (apply nth_error_Some; congruence).
  pose proof (proj1 (Forall_forall _ _) HU s (nth_error_In _ _ H1)) as SH. cbn in SH.
  pose proof (proj1 (Forall_forall _ _) HU s' (nth_error_In _ _ H2)) as SH'. cbn in SH'. rewrite SH in H3. rewrite SH' in H4.
  assert (HH : H / 2 = IZR b * powerRZ 2 k) by (rewrite B, mult_IZR; lra).
  assert (DD : is_double (H / 2)) by (rewrite HH; apply scaled_double; [exact K|nia]).
  unfold row_centre in *. rewrite SH in H3. rewrite SH' in H4. rewrite HH in H3, H4.
  rewrite (exact_edges y0 E H a b k HU K A B L i) in H3 by lia. rewrite (exact_edges y0 E H a b k HU K A B L (S i)) in H4 by lia.
  rewrite <- Rmult_plus_distr_r, <- plus_IZR in H3, H4. rewrite (rnd_id (IZR _ * powerRZ 2 k)) in H3 by (apply scaled_double; [exact K|nia]).
  rewrite (rnd_id (IZR (_ + b) * powerRZ 2 k)) in H4 by (apply scaled_double; [exact K|nia]). rewrite <- HH in H3, H4.
  assert (C : forall v, H / 2 < to_double v -> H / 2 < v).
  { intros v V. destruct (Rle_or_lt v (H / 2)) as [X|X]; [|exact X]. pose proof (rnd_up _ _ DD X). lra. }
  apply C in H3. apply C in H4. rewrite HH in H3, H4. rewrite Nat2Z.inj_succ in H4.
  replace (a + Z.succ (Z.of_nat i) * (2 * b) + b)%Z with (a + Z.of_nat i * (2 * b) + b + 2 * b)%Z in H4 by lia.
  rewrite (plus_IZR _ (2 * b)), mult_IZR in H4. lra.
Qed.

(** ** the centres of the pads *)
Section centres.
Variables (x0 x1 : R) (s : srow).
Hypothesis D0 : is_double x0.
Hypothesis D1 : is_double x1.
Hypothesis G : good_d x0 x1 s.
Hypothesis SR : sound_row x0 x1 s.
Variable M : R.
Hypothesis M0 : Rabs x0 <= M.
Hypothesis M1 : Rabs x1 <= M.
Let xl := fadd x0 (s_left s).
Let xr := fsub x1 (s_right s).
Let W := rounded_width x0 x1 s.
Let w := to_double (W / IZR (s_n s)).
Let n := s_n s.
Let m := M * ulp1.
Definition pad_edge (j : Z) : R := fadd xl (fmul (IZR j) w).
Definition pad_mid (j : Z) : R := fadd (pad_edge j) (fdiv w 2).

Lemma m_small : 0 <= m /\ m <= M / 100000 /\ 0 < M.
Proof.
  destruct (ends_ok _ _ _ D0 D1 G SR M M0 M1) as (MP & _ & _ & _ & _ & _ & _ & _ & _ & WM).
  destruct (wide _ _ _ G SR) as (WP & _). fold W in WP, WM. pose proof ulp1_val. unfold m, ulp1. lra.
Qed.
Lemma w_half : to_double (w / 2) = w / 2.
Proof.
  destruct (wide _ _ _ G SR) as (WP & N & w0 & NW). fold W in WP, w0, NW. fold n in N, w0, NW. change (to_double (W / IZR n)) with w in w0, NW.
  apply half_exact; [apply rnd_double|]. destruct SR as (_ & T & _). fold W in T. apply tiny_bpow in T.
  apply Rabs_le_inv in NW. assert (W * (1 / 2) <= IZR n * w) by (unfold ulp1 in NW; lra).
  assert (IZR n * w <= 2147483648 * w) by (apply Rmult_le_compat_r; lra).
  rewrite Rabs_pos_eq by lra. assert (bpow radix2 (-1000) * bpow radix2 32 <= W) as B.
  { rewrite <- bpow_plus. eapply Rle_trans; [|exact T]. apply bpow_le. lia. }
  replace (bpow radix2 32) with 4294967296 in B by reflexivity. lra.
Qed.
Lemma edge_close j : (0 <= j <= n)%Z -> Rabs (pad_edge j - (xl + IZR j * w)) <= 5 * m /\ - M - M / 1000 <= pad_edge j <= M + M / 1000 /\ 0 <= IZR j * w <= 3 * M + M / 1000.
Proof.
  intros J. destruct (wide _ _ _ G SR) as (WP & N & w0 & NW). destruct (ends_ok _ _ _ D0 D1 G SR M M0 M1) as (MP & LT & EL & ER & AL & AR & BL & BR & BW & WM).
  fold W in WP, w0, NW, BW, WM. fold n in N, w0, NW. fold xl in LT, EL, BL, BW. fold xr in LT, ER, BR, BW. change (to_double (W / IZR n)) with w in w0, NW. destruct m_small as (Q0 & Q1 & Q2). pose proof ulp1_val as U.
  assert (J0 : 0 <= IZR j <= IZR n) by (split; apply IZR_le; lia).
  assert (JW : 0 <= IZR j * w <= IZR n * w) by (split; [apply Rmult_le_pos; lra|apply Rmult_le_compat_r; lra]).
  assert (UW : ulp1 * W <= 3 * m) by (unfold m; assert (W * ulp1 <= 3 * M * ulp1) by (apply Rmult_le_compat_r; lra); lra).
  apply Rabs_le_inv in NW. assert (2 * M * ulp1 = 2 * m) as E2 by (unfold m; ring). rewrite E2 in BL, BR, BW.
  pose proof (rel_grid (IZR j * w) (grid_mult _ _ (grid_double _ (rnd_double _)))) as F1. rewrite (Rabs_pos_eq (IZR j * w)) in F1 by lra.
  assert (U1 : ulp1 * (IZR j * w) <= 3 * m + m / 100) by (apply Rle_trans with (ulp1 * (3 * M + M / 1000)); [apply Rmult_le_compat_l; lra|unfold m; lra]).
  fold (fmul (IZR j) w) in F1. apply Rabs_le_inv in F1, BW.
  pose proof (fadd_err xl (fmul (IZR j) w) (rnd_double _) (rnd_double _)) as F2. fold (pad_edge j) in F2.
  assert (S2 : Rabs (xl + fmul (IZR j) w) <= M + M / 5000) by (apply Rabs_le; lra).
  assert (U2 : ulp1 * Rabs (xl + fmul (IZR j) w) <= m + m / 100) by (apply Rle_trans with (ulp1 * (M + M / 5000)); [apply Rmult_le_compat_l; lra|unfold m; lra]).
  apply Rabs_le_inv in S2, F2. split; [apply Rabs_le; lra|]. lra.
Qed.
Lemma mid_close j : (0 <= j < n)%Z -> Rabs (pad_mid j - (cell_left x0 x1 s j + pitch x0 x1 s / 2)) <= tol_x M.
Proof.
  intros J. destruct (edge_close j ltac:(lia)) as (E1 & E2 & _). destruct (edge_close 1 ltac:(lia)) as (_ & _ & W1).
  destruct (wide _ _ _ G SR) as (WP & N & w0 & NW). destruct (ends_ok _ _ _ D0 D1 G SR M M0 M1) as (MP & LT & EL & ER & AL & AR & BL & BR & BW & WM).
  fold W in WP, w0, NW, BW, WM. fold n in N, w0, NW. fold xl in LT, EL, BL, BW. fold xr in LT, ER, BR, BW. change (to_double (W / IZR n)) with w in w0, NW.
  pose proof (pitch_near _ _ _ D0 D1 G SR M M0 M1 (IZR j) ltac:(split; apply IZR_le; fold n; lia)) as P1.
  pose proof (pitch_near _ _ _ D0 D1 G SR M M0 M1 (1 / 2) ltac:(fold n; lra)) as P2. fold W n in P1, P2. change (to_double (W / IZR n)) with w in P1, P2.
  destruct m_small as (Q0 & Q1 & Q2). pose proof ulp1_val as U.
  unfold pad_mid, fdiv. rewrite w_half. pose proof (fadd_err (pad_edge j) (w / 2) (rnd_double _)) as F.
  assert (DH : is_double (w / 2)) by (rewrite <- w_half; apply rnd_double). specialize (F DH).
  assert (S2 : Rabs (pad_edge j + w / 2) <= 3 * M) by (apply Rabs_le; lra).
  assert (U2 : ulp1 * Rabs (pad_edge j + w / 2) <= 3 * m) by (apply Rle_trans with (ulp1 * (3 * M)); [apply Rmult_le_compat_l; lra|unfold m; lra]).
  replace (9 * M * ulp1) with (9 * m) in P1, P2 by (unfold m; ring). replace (2 * M * ulp1) with (2 * m) in BL by (unfold m; ring).
  replace (tol_x M) with (32 * m) by (unfold tol_x, m; ring). unfold cell_left. apply Rabs_le_inv in F, E1, P1, P2, BL. apply Rabs_le. lra.
Qed.
Lemma rnd_above v : to_double v <= v + ulp1 * Rabs v + bpow radix2 (-1021).
Proof.
  pose proof (bpow_gt_0 radix2 (-1021)). pose proof ulp1_val. pose proof (Rabs_pos v).
  destruct (Rle_or_lt (bpow radix2 (-1022)) (Rabs v)) as [L|L]; [pose proof (rel_normal v L) as F; apply Rabs_le_inv in F; lra|].
  assert (to_double v <= bpow radix2 (-1022)) by (apply rnd_up; [apply bpow_double; lia|]; pose proof (Rle_abs v); lra).
  assert (bpow radix2 (-1021) = 2 * bpow radix2 (-1022)) by (change (-1021)%Z with (1 + -1022)%Z; rewrite bpow_plus; reflexivity).
  pose proof (Rle_abs (- v)) as A. rewrite Rabs_Ropp in A. assert (0 <= ulp1 * Rabs v) by (apply Rmult_le_pos; lra). lra.
Qed.
Lemma m_normal : bpow radix2 (-1021) <= m.
Proof.
  destruct (ends_ok _ _ _ D0 D1 G SR M M0 M1) as (MP & _ & _ & _ & _ & _ & _ & _ & _ & WM). fold W in WM.
  destruct SR as (_ & T & _). fold W in T. apply tiny_bpow in T. unfold m. change ulp1 with (bpow radix2 (-53)).
  apply Rle_trans with (bpow radix2 (-502) * bpow radix2 (-53)); [rewrite <- bpow_plus; apply bpow_le; lia|]. apply Rmult_le_compat_r; [apply bpow_ge_0|].
  assert (bpow radix2 (-500) = 4 * bpow radix2 (-502)) by (change (-500)%Z with (2 + -502)%Z; rewrite bpow_plus; reflexivity).
  pose proof (bpow_gt_0 radix2 (-502)). lra.
Qed.
(** the gap on each side of a pad *)
Let gap := fdiv (fsub w (s_padW s)) 2.
Lemma mid_inside j : (0 <= j < n)%Z -> tol_x M <= s_padW s ->
  fadd (pad_edge j) gap <= pad_mid j <= fsub (pad_edge (j + 1)) gap.
Proof.
  intros J PW. destruct (edge_close j ltac:(lia)) as (E1 & E2 & _). destruct (edge_close (j + 1) ltac:(lia)) as (E3 & E4 & _).
  destruct (edge_close 1 ltac:(lia)) as (_ & _ & W1).
  destruct (wide _ _ _ G SR) as (WP & N & w0 & NW). destruct (ends_ok _ _ _ D0 D1 G SR M M0 M1) as (MP & LT & EL & ER & AL & AR & BL & BR & BW & WM).
  fold W in WP, w0, NW, BW, WM. fold n in N, w0, NW. fold xl in LT, EL, BL, BW. fold xr in LT, ER, BR, BW. change (to_double (W / IZR n)) with w in w0, NW. destruct m_small as (Q0 & Q1 & Q2). pose proof ulp1_val as U.
  replace (tol_x M) with (32 * m) in PW by (unfold tol_x, m; ring).
  destruct G as (_ & PP & _ & _ & _ & _ & DP & _ & _ & _ & _ & WF & _).
  assert (GW : fsub w (s_padW s) <= w) by (apply rnd_up; [apply rnd_double|lra]).
  split.
  - unfold pad_mid, fadd. apply rnd_le. assert (gap <= fdiv w 2) by (apply rnd_le; lra). lra.
  - unfold pad_mid, fadd, fsub at 1. apply rnd_le. unfold fdiv. rewrite w_half.
    assert (PW3 : s_padW s <= 3 * M + M / 1000).
    { unfold width_fits_d in WF. fold n in WF. change (to_double (to_double (x1 - s_right s) - to_double (x0 + s_left s))) with W in WF.
      pose proof (rel_grid (IZR n * s_padW s) (grid_mult _ _ (grid_double _ DP))) as F. assert (NP : 1 * s_padW s <= IZR n * s_padW s) by (apply Rmult_le_compat_r; lra).
      rewrite (Rabs_pos_eq (IZR n * s_padW s)) in F by lra. apply Rabs_le_inv in F. unfold ulp1 in F. lra. }
    pose proof (fsub_err w (s_padW s) (rnd_double _) DP) as F. assert (WA : Rabs (w - s_padW s) <= 3 * M + M / 500) by (apply Rabs_le; lra).
    assert (UA : ulp1 * Rabs (w - s_padW s) <= 4 * m) by (apply Rle_trans with (ulp1 * (4 * M)); [apply Rmult_le_compat_l; lra|unfold m; lra]).
    pose proof (rnd_above (fsub w (s_padW s) / 2)) as R. change (to_double (fsub w (s_padW s) / 2)) with gap in R.
    apply Rabs_le_inv in F, WA. assert (FA : Rabs (fsub w (s_padW s) / 2) <= 2 * M) by (apply Rabs_le; lra).
    assert (UF : ulp1 * Rabs (fsub w (s_padW s) / 2) <= 2 * m) by (apply Rle_trans with (ulp1 * (2 * M)); [apply Rmult_le_compat_l; lra|unfold m; lra]).
    pose proof m_normal as MN. rewrite plus_IZR in E3. apply Rabs_le_inv in E1, E3. lra.
Qed.
End centres.
