(** The rectangular layout in double arithmetic: the pad in a row, and the whole of getNearestPad. *)
From Coq Require Import ZArith List String Bool Reals Lra Lia.
From Flocq Require Import Core Relative.
From Verif Require Import Base RBase ListExtra BitProofs NumModel NumSpec NumProofs FpModel FpSpec FpProofs
  RectModel RectSpec RectProofs RectProofs2 RectProofs3 FpRectModel FpRectSpec FpRectProofs FpRectProofs2 FpRectProofs3.
Import ListNotations.
Open Scope R_scope.

Section pads.
Variables (x0 x1 : R) (s : srow).
Hypothesis D0 : is_double x0.
Hypothesis D1 : is_double x1.
Hypothesis G : good_d x0 x1 s.
Hypothesis SR : sound_row x0 x1 s.
Variable M : R.
Hypothesis M0 : Rabs x0 <= M.
Hypothesis M1 : Rabs x1 <= M.
Let xl := fadd x0 (s_left s).
Let xr := fsub x1 (s_right s).
Let W := rounded_width x0 x1 s.
Let w := to_double (W / IZR (s_n s)).
Let n := s_n s.

Lemma wide : 0 < W /\ 1 <= IZR n <= 2147483647 /\ 0 < w /\ Rabs (IZR n * w - W) <= ulp1 * W.
Proof.
  destruct SR as (_ & T & _). destruct G as (GN & _). unfold not_tiny in T. fold W in T.
  assert (0 < powerRZ 2 (-500)) by (apply powerRZ_lt; lra).
  assert (N : 1 <= IZR n <= 2147483647) by (unfold n; split; apply IZR_le; lia).
  split; [lra|]. split; [exact N|].
  pose proof (rel_normal (W / IZR n) (tiny_normal _ n T ltac:(unfold n; lia))) as F. fold w in F.
  assert (Q : 0 < W / IZR n) by (apply Rmult_lt_0_compat; [lra|apply Rinv_0_lt_compat; lra]).
  rewrite (Rabs_pos_eq (W / IZR n)) in F by lra. pose proof ulp1_val as U.
  split.
  - apply Rabs_le_inv in F. unfold ulp1 in F. change (to_double (W / IZR n)) with w in F. lra.
  - replace (IZR n * w - W) with (IZR n * (w - W / IZR n)) by (field; lra).
    rewrite Rabs_mult, (Rabs_pos_eq (IZR n)) by lra. replace (ulp1 * W) with (IZR n * (ulp1 * (W / IZR n))) by (field; lra).
    apply Rmult_le_compat_l; [lra|exact F].
Qed.
Lemma ends_ok : 0 <= M /\ xl < xr /\ - M <= xl /\ xr <= M /\
  Rabs (x0 + s_left s) <= 2 * M /\ Rabs (x1 - s_right s) <= 2 * M /\
  Rabs (xl - (x0 + s_left s)) <= 2 * M * ulp1 /\ Rabs (xr - (x1 - s_right s)) <= 2 * M * ulp1 /\
  Rabs (W - (xr - xl)) <= 2 * M * ulp1 /\ W <= 3 * M.
Proof.
  assert (MP : 0 <= M) by (eapply Rle_trans; [apply Rabs_pos|exact M0]).
  destruct wide as (WP & _). pose proof ulp1_val as U.
  destruct G as (_ & _ & _ & _ & L & R & _ & _ & _ & DL & DR & _).
  assert (LT : xl < xr).
  { destruct (Rle_or_lt xr xl) as [C|]; [exfalso|assumption]. assert (W <= 0); [|lra].
    unfold W, rounded_width. rewrite <- rnd_0. apply rnd_le. unfold xl, xr, fadd, fsub in C. lra. }
  apply Rabs_le_inv in M0, M1.
  assert (XL : x0 <= xl) by (apply rnd_lo; auto; lra).
  assert (XR : xr <= x1) by (apply rnd_up; auto; lra).
  pose proof (fadd_err x0 (s_left s) D0 DL) as FL. pose proof (fsub_err x1 (s_right s) D1 DR) as FR. fold xl in FL. fold xr in FR.
  assert (AL : Rabs (x0 + s_left s) <= 2 * M).
  { apply Rabs_le. split; [lra|]. apply Rabs_le_inv in FL.
    destruct (Rle_or_lt (x0 + s_left s) 0); [lra|]. rewrite Rabs_pos_eq in FL by lra. unfold ulp1 in FL. lra. }
  assert (AR : Rabs (x1 - s_right s) <= 2 * M).
  { apply Rabs_le. split; [|lra]. apply Rabs_le_inv in FR.
    destruct (Rle_or_lt (x1 - s_right s) 0); [|lra]. rewrite Rabs_left1 in FR by lra. unfold ulp1 in FR. lra. }
  pose proof (fsub_err xr xl (rnd_double _) (rnd_double _)) as FW.
  change (fsub xr xl) with W in FW. rewrite (Rabs_pos_eq (xr - xl)) in FW by lra.
  repeat split; auto; try lra.
  - eapply Rle_trans; [exact FL|]. rewrite Rmult_comm. apply Rmult_le_compat_r; lra.
  - eapply Rle_trans; [exact FR|]. rewrite Rmult_comm. apply Rmult_le_compat_r; lra.
  - eapply Rle_trans; [exact FW|]. rewrite Rmult_comm. apply Rmult_le_compat_r; lra.
  - apply Rabs_le_inv in FW. unfold ulp1 in FW. lra.
Qed.

(** multiples of the rounded pitch *)
Lemma pitch_near j : 0 <= j <= IZR n -> Rabs (j * w - j * pitch x0 x1 s) <= 9 * M * ulp1.
Proof.
  intros J. destruct wide as (WP & N & w0 & NW). destruct ends_ok as (MP & LT & EL & ER & AL & AR & BL & BR & BW & WM).
  pose proof ulp1_val as U.
  assert (NP : IZR n * pitch x0 x1 s = (x1 - s_right s) - (x0 + s_left s)) by (unfold pitch, n in *; field; lra).
  assert (T : Rabs (IZR n * w - IZR n * pitch x0 x1 s) <= 9 * M * ulp1).
  { rewrite NP. assert (ulp1 * W <= 3 * M * ulp1) by (rewrite Rmult_comm; apply Rmult_le_compat_r; lra).
    apply Rabs_le_inv in NW, BL, BR, BW. apply Rabs_le. lra. }
  replace (j * w - j * pitch x0 x1 s) with (j / IZR n * (IZR n * w - IZR n * pitch x0 x1 s)) by (field; lra).
  rewrite Rabs_mult. assert (0 <= j / IZR n <= 1).
  { split; [apply Rmult_le_pos; [lra|apply Rlt_le, Rinv_0_lt_compat; lra]|]. apply (Rmult_le_reg_r (IZR n)); [lra|]. unfold Rdiv. rewrite Rmult_assoc, Rinv_l; lra. }
  rewrite Rabs_pos_eq by lra. pose proof (Rabs_pos (IZR n * w - IZR n * pitch x0 x1 s)). nra.
Qed.

(** the quotient of line 447 *)
Lemma quotient_ok x : is_double x -> xl < x < xr ->
  exists j, to_int (fdiv (fsub x xl) w) = Ok j /\ (0 <= j <= n)%Z /\
    x0 + s_left s + IZR j * pitch x0 x1 s - 24 * M * ulp1 <= x /\
    ((j < n)%Z -> x <= x0 + s_left s + (IZR j + 1) * pitch x0 x1 s + 24 * M * ulp1).
Proof.
  intros DX HX. destruct wide as (WP & N & w0 & NW). destruct ends_ok as (MP & LT & EL & ER & AL & AR & BL & BR & BW & WM).
  pose proof ulp1_val as U.
  set (d := fsub x xl). assert (DP : 0 < d) by (apply fsub_pos; auto; [apply rnd_double|lra]).
  assert (DW : d <= W) by (change W with (fsub xr xl); apply fsub_le; lra).
  pose proof (fsub_err x xl DX (rnd_double _)) as FD. fold d in FD. rewrite (Rabs_pos_eq (x - xl)) in FD by lra.
  assert (UD : ulp1 * (x - xl) <= 2 * M * ulp1) by (rewrite Rmult_comm; apply Rmult_le_compat_r; lra).
  set (v := d / w). assert (V0 : 0 < v) by (apply Rmult_lt_0_compat; [lra|apply Rinv_0_lt_compat; lra]).
  assert (VW : v * w = d) by (unfold v; field; lra).
  apply Rabs_le_inv in NW.
  assert (V1 : v <= IZR n * (1 + 2 * ulp1)).
  { apply (Rmult_le_reg_r w); [lra|]. rewrite VW. apply Rle_trans with W; [lra|].
    assert (W * (1 - ulp1) <= IZR n * w) by lra.
    assert (W * ((1 - ulp1) * (1 + 2 * ulp1)) <= IZR n * w * (1 + 2 * ulp1)) by (rewrite <- Rmult_assoc; apply Rmult_le_compat_r; lra).
    assert (W * 1 <= W * ((1 - ulp1) * (1 + 2 * ulp1))) by (apply Rmult_le_compat_l; [lra|unfold ulp1; lra]). lra. }
  pose proof (rnd_rel v) as FQ. rewrite (Rabs_pos_eq v) in FQ by lra. change (to_double v) with (fdiv d w) in FQ.
  set (q := fdiv d w) in *. assert (Q0 : 0 <= q) by (apply rnd_nonneg; fold v; lra).
  assert (Q1 : q < IZR (n + 1)).
  { rewrite plus_IZR. apply Rabs_le_inv in FQ. unfold ulp1 in V1. lra. }
  destruct (Ztrunc_between q (n + 1) (conj Q0 Q1)) as (TZ & TB).
  exists (Ztrunc q). split; [|split; [lia|]].
  { unfold to_int. assert (int_okb (Ztrunc q) = true) as ->; [|reflexivity]. apply int_okb_true. unfold int_ok.
    destruct G as (GN & _). unfold n in TZ. lia. }
  set (j := Ztrunc q) in *. assert (J0 : 0 <= IZR j) by (apply IZR_le; lia). assert (JN : IZR j <= IZR n) by (apply IZR_le; lia).
  apply Rabs_le_inv in FQ, FD, BL, BR.
  split.
  - (* v (1+u) + u >= j *)
    assert (VJ : IZR j <= v + (v + 1) * ulp1) by (unfold ulp1; lra).
    assert (WJ : IZR j * w <= d + (v + 1) * w * ulp1).
    { rewrite <- VW. replace (v * w + (v + 1) * w * ulp1) with ((v + (v + 1) * ulp1) * w) by ring. apply Rmult_le_compat_r; lra. }
    assert (w <= IZR n * w) by (rewrite <- (Rmult_1_l w) at 1; apply Rmult_le_compat_r; lra).
    assert ((v + 1) * w <= 8 * M).
    { replace ((v + 1) * w) with (d + w) by (rewrite <- VW; ring). unfold ulp1 in NW. lra. }
    assert ((v + 1) * w * ulp1 <= 8 * M * ulp1) by (apply Rmult_le_compat_r; lra).
    pose proof (pitch_near (IZR j) (conj J0 JN)) as PN. apply Rabs_le_inv in PN.
    assert (0 <= M * ulp1) by (apply Rmult_le_pos; lra). lra.
  - intros JL. assert (IZR j + 1 <= IZR n) by (rewrite <- (plus_IZR j 1); apply IZR_le; lia).
    assert (VL : v < IZR j + 1).
    { destruct (Rle_or_lt (IZR j + 1) v) as [C|]; [exfalso|assumption].
      assert (IZR j + 1 <= q); [|lra]. rewrite <- (plus_IZR j 1) in *. apply rnd_lo; [|exact C].
      apply double_int. destruct G as (GN & _). unfold n in *. lia. }
    assert (d <= (IZR j + 1) * w) by (rewrite <- VW; apply Rmult_le_compat_r; lra).
    pose proof (pitch_near (IZR j + 1) ltac:(lra)) as PN. apply Rabs_le_inv in PN.
    assert (0 <= M * ulp1) by (apply Rmult_le_pos; lra). lra.
Qed.

(** the pad of a point of the plane *)
Lemma pad_found l b x : ext0 l = x0 -> ext1 l = x1 -> is_double x -> x0 <= x <= x1 ->
  exists j, dpad_in_row l (drow x0 x1 b s) x = Ok j /\
   ((0 <= j < n)%Z /\ (exists x', Rabs (x' - x) <= tol_x M /\ x0 <= x' <= x1 /\ pad_across x0 x1 s x' j) \/
    j = n /\ x1 - s_right s - tol_x M <= x < xr).
Proof.
  intros E0 E1 DX HX. destruct wide as (WP & N & w0 & NW). destruct ends_ok as (MP & LT & EL & ER & AL & AR & BL & BR & BW & WM).
  pose proof ulp1_val as U. assert (MU : 0 <= M * ulp1) by (apply Rmult_le_pos; lra).
  destruct SR as (RM & _ & _). destruct G as (GN & _ & _ & _ & GL & GR & _).
  assert (PP : 0 <= pitch x0 x1 s) by (apply Rmult_le_pos; [lra|apply Rlt_le, Rinv_0_lt_compat; unfold n in N; lra]).
  assert (NP : IZR n * pitch x0 x1 s = (x1 - s_right s) - (x0 + s_left s)) by (unfold pitch, n in *; field; lra).
  apply Rabs_le_inv in BL, BR.
  unfold dpad_in_row. rewrite E0, E1. cbn [drow LeftOffset RightOffset WidthPerPad NPad]. fold xl. fold xr.
  change (to_double (dwidth x0 x1 s / IZR (s_n s))) with w.
  assert (TX : tol_x M = 32 * (M * ulp1)) by (unfold tol_x; ring).
  rcase.
  { exists 0%Z. split; [reflexivity|]. left. split; [unfold n; lia|].
    exists (Rmin x (x0 + s_left s)). split.
    - rewrite TX. unfold Rmin. destruct (Rle_dec x (x0 + s_left s)); apply Rabs_le; lra.
    - pose proof (Rmin_l x (x0 + s_left s)). pose proof (Rmin_r x (x0 + s_left s)).
      assert (x0 <= Rmin x (x0 + s_left s)) by (apply Rmin_glb; lra). split; [lra|].
      split; [lia|]. split; [auto|]. split; [lra|]. intros K. unfold cell_left. lra. }
  rcase.
  { exists (n - 1)%Z. split; [reflexivity|]. left. split; [unfold n; lia|].
    exists (Rmax x (x1 - s_right s)). split.
    - rewrite TX. unfold Rmax. destruct (Rle_dec x (x1 - s_right s)); apply Rabs_le; lra.
    - pose proof (Rmax_l x (x1 - s_right s)). pose proof (Rmax_r x (x1 - s_right s)).
      assert (Rmax x (x1 - s_right s) <= x1) by (apply Rmax_lub; lra). split; [lra|].
      split; [lia|]. split; [|split; [auto|]].
      + intros K. exfalso. lra.
      + intros K. unfold cell_left. rewrite minus_IZR. fold n. assert (K' : Rmax x (x1 - s_right s) = x1 - s_right s) by lra. rewrite K'. lra. }
  assert (Reqb w 0 = false) as -> by (apply Reqb_false; lra).
  destruct (quotient_ok x DX ltac:(lra)) as (j & J & JR & JA & JB). exists j. split; [exact J|].
  assert (J0 : 0 <= IZR j) by (apply IZR_le; lia).
  destruct (Z.eq_dec j n) as [->|JN].
  - right. split; [reflexivity|]. rewrite NP in JA. lra.
  - left. split; [lia|]. assert (J1 : IZR j + 1 <= IZR n) by (rewrite <- (plus_IZR j 1); apply IZR_le; lia).
    specialize (JB ltac:(lia)).
    set (a := x0 + s_left s + IZR j * pitch x0 x1 s) in *. set (c := x0 + s_left s + (IZR j + 1) * pitch x0 x1 s) in *.
    assert (A0 : x0 + s_left s <= a) by (unfold a; assert (0 <= IZR j * pitch x0 x1 s) by (apply Rmult_le_pos; lra); lra).
    assert (C0 : c <= x1 - s_right s).
    { unfold c. assert ((IZR j + 1) * pitch x0 x1 s <= IZR n * pitch x0 x1 s) by (apply Rmult_le_compat_r; lra). lra. }
    assert (AC : c = a + pitch x0 x1 s) by (unfold a, c; ring).
    exists (clampR a c x). pose proof (clampR_range a c x ltac:(lra)) as CR. split.
    + rewrite TX. unfold clampR, Rmax, Rmin in *. destruct (Rle_dec c x), (Rle_dec a _); apply Rabs_le; lra.
    + split; [lra|]. split; [fold n; lia|]. split; [lra|]. split; [lra|]. intros _. unfold cell_left. fold a. lra.
Qed.
End pads.

(** ** pad indices *)
Lemma dindex_ok x0 x1 y0 E rp l i s j : drep x0 x1 y0 E rp l -> indexable E -> nth_error E i = Some s -> (0 <= j < s_n s)%Z ->
  getPadIndex l (Z.of_nat i) j = Ok (code (Z.of_nat i) j).
Proof.
  intros HR (HN & HP) H J. assert (Hi : (i < List.length E)%nat) by (apply nth_error_Some; congruence).
  pose proof (proj1 (Forall_forall _ _) HP s (nth_error_In _ _ H)) as P. cbn in P.
  unfold getPadIndex. rewrite (dlen _ _ _ _ _ _ HR). rewrite Z.mod_small by lia. rewrite uint32_small by lia.
  destruct (Z.ltb_spec (Z.of_nat (List.length E) - 1) (Z.of_nat i)); [lia|].
  unfold sub. rewrite (drow_nth _ _ _ _ _ _ HR _ _ H). cbn [rbind drow NPad].
  destruct (Z.ltb_spec (s_n s - 1) j); [lia|]. f_equal. apply raw_code; lia.
Qed.
Lemma dindex_throws x0 x1 y0 E rp l i s : drep x0 x1 y0 E rp l -> indexable E -> nth_error E i = Some s ->
  exists m, getPadIndex l (Z.of_nat i) (s_n s) = Throw (EOutOfRange m).
Proof.
  intros HR (HN & HP) H. assert (Hi : (i < List.length E)%nat) by (apply nth_error_Some; congruence).
  unfold getPadIndex. rewrite (dlen _ _ _ _ _ _ HR). rewrite Z.mod_small by lia. rewrite uint32_small by lia.
  destruct (Z.ltb_spec (Z.of_nat (List.length E) - 1) (Z.of_nat i)); [lia|].
  unfold sub. rewrite (drow_nth _ _ _ _ _ _ HR _ _ H). cbn [rbind drow NPad].
  destruct (Z.ltb_spec (s_n s - 1) (s_n s)); [eauto|lia].
Qed.

Lemma clamp_double lo hi v : is_double lo -> is_double hi -> is_double v -> is_double (clampR lo hi v).
Proof. intros. unfold clampR, Rmax, Rmin. destruct (Rle_dec _ _); destruct (Rle_dec _ _); auto. Qed.
Lemma clamp_shift lo h1 h2 v : lo <= h1 -> lo <= h2 -> Rabs (clampR lo h1 v - clampR lo h2 v) <= Rabs (h1 - h2).
Proof.
  intros A B. unfold clampR, Rmax, Rmin.
  pose proof (Rle_abs (h1 - h2)). pose proof (Rle_abs (- (h1 - h2))) as K. rewrite Rabs_Ropp in K.
  repeat destruct (Rle_dec _ _); apply Rabs_le; lra.
Qed.
Lemma edge_mono E y0 i : is_double y0 -> Forall (fun s => 0 <= s_h s) E -> (i <= List.length E)%nat -> y0 <= edge y0 E i.
Proof.
  intros D HE. induction i; intros Hi; [rewrite edge_0; lra|].
  destruct (nth_error E i) as [s|] eqn:Es; [|apply nth_error_None in Es; lia].
  rewrite (edge_S _ _ _ _ Es). specialize (IHi ltac:(lia)).
  pose proof (proj1 (Forall_forall _ _) HE s (nth_error_In _ _ Es)) as P. cbn in P.
  apply Rle_trans with (edge y0 E i); [exact IHi|]. apply rnd_lo; [now apply edge_double|lra].
Qed.

Lemma rect_nearest_double : forall x0 x1 y0 h l, built_d x0 x1 y0 h l ->
  let E := expected_rows_d x0 x1 h in
  indexable E -> full_height E -> Forall (sound_row x0 x1) E ->
  forall Mx My, within Mx x0 x1 -> within My y0 (y0 + heights E) -> tol_y (List.length E) My < heights E ->
  forall fuel x y, is_double x -> is_double y ->
  dgetNearestPad fuel l x y = None \/
  (exists i s j p x' y', dgetNearestPad fuel l x y = Some (Ok p) /\ getPadIndex l (Z.of_nat i) j = Ok p /\
     Rabs (x' - clampR x0 x1 x) <= tol_x Mx /\ Rabs (y' - clampR y0 (y0 + heights E) y) <= tol_y (List.length E) My /\
     pad_at x0 x1 y0 E x' y' i s j) \/
  (exists i s m y', dgetNearestPad fuel l x y = Some (Throw (EOutOfRange m)) /\ nth_error E i = Some s /\
     x1 - s_right s - tol_x Mx <= clampR x0 x1 x < to_double (x1 - s_right s) /\
     Rabs (y' - clampR y0 (y0 + heights E) y) <= tol_y (List.length E) My /\ bottom y0 E i <= y' <= bottom y0 E i + s_h s).
Proof.
  intros x0 x1 y0 h l HB E IX HF HS Mx My (X0 & X1) (Y0 & Y1) TH fuel x y DX DY.
  destruct (built_drep _ _ _ _ _ HB) as (D0 & D1 & D2 & rp & HR). fold E in HR.
  pose proof IX as (HN & _).
  assert (HT : Forall (fun s => not_tiny (s_h s)) E) by (eapply Forall_impl; [|exact HS]; intros s (_ & _ & T); exact T).
  assert (HG : Forall (fun s => 0 <= s_h s) E) by (eapply goods'; eauto).
  assert (MP : 0 <= My) by (eapply Rle_trans; [apply Rabs_pos|exact Y0]).
  pose proof ulp1_val as U. assert (MU : 0 <= My * ulp1) by (apply Rmult_le_pos; lra).
  assert (NP : 0 <= INR (List.length E) * (My * ulp1)) by (apply Rmult_le_pos; [apply pos_INR|exact MU]).
  assert (TE : tol_y (List.length E) My = 4 * (INR (List.length E) * (My * ulp1)) + 16 * (My * ulp1)) by (unfold tol_y; ring).
  pose proof (top_near x0 x1 y0 E rp l HR HN D2 My Y0 Y1) as TN.
  assert (LT : y0 < top_edge y0 E) by (pose proof TN as TN'; apply Rabs_le_inv in TN'; lra).
  assert (DT : is_double (top_edge y0 E)) by now apply edge_double.
  assert (LN : (0 < List.length E)%nat) by (destruct E; cbn in *; [lra|lia]).
  assert (HX : x0 <= x1).
  { destruct E as [|s t]; [cbn in LN; lia|]. inversion HS; subst. destruct H1 as (R & _).
    pose proof (dr_good _ _ _ _ _ _ HR) as GG. inversion GG; subst. destruct H1 as (_ & _ & _ & _ & L & RR & _). lra. }
  unfold dgetNearestPad. rewrite (dr_e0 _ _ _ _ _ _ HR), (dr_e1 _ _ _ _ _ _ HR), (dr_e2 _ _ _ _ _ _ HR), (dr_e3 _ _ _ _ _ _ HR).
  rewrite !clampR_eq by lra.
  assert (Reqb (fsub (top_edge y0 E) y0) 0 = false) as -> by (apply Reqb_false; pose proof (fsub_pos _ _ D2 DT LT); lra).
  set (yc := clampR y0 (top_edge y0 E) y). set (xc := clampR x0 x1 x).
  pose proof (clampR_range y0 (top_edge y0 E) y ltac:(lra)) as YR. fold yc in YR.
  pose proof (clampR_range x0 x1 x HX) as XR. fold xc in XR.
  assert (DYC : is_double yc) by (apply clamp_double; auto). assert (DXC : is_double xc) by (apply clamp_double; auto).
  pose proof (guess_safe x0 x1 y0 E rp l HR ltac:(lia) yc D2 DT LT YR ltac:(lia)) as GR.
  assert (int_okb (dguess l yc) = true) as -> by (apply int_okb_true; unfold int_ok; lia).
  destruct (search_safe x0 x1 y0 E rp l HR HF ltac:(lia) fuel yc (dguess l yc) YR GR) as [->|(i & -> & ST)]; [now left|right].
  destruct (stops_near x0 x1 y0 E rp l HR HN D2 HT My Y0 Y1 yc i DYC YR ST) as (s & Hs & NB).
  unfold sub. rewrite (drow_nth _ _ _ _ _ _ HR _ _ Hs). cbn [rbind].
  destruct (pad_found x0 x1 s D0 D1 (proj1 (Forall_forall _ _) (dr_good _ _ _ _ _ _ HR) s (nth_error_In _ _ Hs))
              (proj1 (Forall_forall _ _) HS s (nth_error_In _ _ Hs)) Mx X0 X1 l (edge y0 E i) xc
              (dr_e0 _ _ _ _ _ _ HR) (dr_e1 _ _ _ _ _ _ HR) DXC XR) as (j & J & C). rewrite J. cbn [rbind].
  pose proof (proj1 (Forall_forall _ _) HG s (nth_error_In _ _ Hs)) as SP. cbn in SP.
  assert (YN : exists y', Rabs (y' - clampR y0 (y0 + heights E) y) <= tol_y (List.length E) My /\ bottom y0 E i <= y' <= bottom y0 E i + s_h s).
  { exists (clampR (bottom y0 E i) (bottom y0 E i + s_h s) yc). split; [|apply clampR_range; lra].
    pose proof (heights_nonneg E HG) as HH.
    pose proof (clamp_shift y0 (top_edge y0 E) (y0 + heights E) y ltac:(lra) ltac:(lra)) as CS. fold yc in CS.
    assert (CN : Rabs (clampR (bottom y0 E i) (bottom y0 E i + s_h s) yc - yc) <= (2 * INR (List.length E) + 14) * My * ulp1).
    { assert (0 <= (2 * INR (List.length E) + 14) * My * ulp1) by lra.
      unfold clampR, Rmax, Rmin in *. destruct (Rle_dec (bottom y0 E i + s_h s) yc), (Rle_dec (bottom y0 E i) _); apply Rabs_le; lra. }
    assert (CS' : Rabs (yc - clampR y0 (y0 + heights E) y) <= 2 * INR (List.length E) * My * ulp1) by lra.
    apply Rabs_le_inv in CN, CS'. apply Rabs_le. lra. }
  destruct YN as (y' & YA & YB).
  destruct C as [(JR & x' & XA & XB & PA)|(-> & XA)].
  - left. rewrite (dindex_ok _ _ _ _ _ _ _ _ _ HR IX Hs JR). exists i, s, j, (code (Z.of_nat i) j), x', y'.
    split; [reflexivity|]. split; [now rewrite (dindex_ok _ _ _ _ _ _ _ _ _ HR IX Hs JR)|]. split; [exact XA|]. split; [exact YA|].
    destruct PA as (P1 & P2 & P3 & P4). repeat split; auto; try lia; try lra; try (apply P4; lra).
  - right. destruct (dindex_throws _ _ _ _ _ _ _ _ HR IX Hs) as (m & Em). rewrite Em. exists i, s, m, y'. auto 10.
Qed.
