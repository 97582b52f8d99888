(** C87: RectangularPadRowLayout::getNearestPadOld. *)
From Coq Require Import ZArith List String Bool Reals Lra Lia.
From Verif Require Import Base RBase RectModel RectOldModel RectSpec RectOldSpec RectProofs RectProofs2 RectProofs3 RectProofs4
  RectProofs5 RectProofs6 RectOldProofs RectOldProofs2.
Import ListNotations.
Open Scope R_scope.

(** C87: on every layout with rows the old search returns.  The pad is in the row whose pads are nearest to the
    point moved to the plane, the lowest such row if there are several, as long as this row is nearer than twice
    the height of the plane; else in the bottom row. *)
Theorem C87_old_nearest : forall x0 x1 y0 h l, built x0 x1 y0 h l ->
  let E := expected_rows x0 x1 h in indexable E -> E <> [] ->
  forall x y, let px := clampR x0 x1 x in let py := clampR y0 (y0 + heights E) y in
  exists i s j p, getNearestPadOld l x y = Ok p /\ getPadIndex l (Z.of_nat i) j = Ok p /\
    nth_error E i = Some s /\ pad_across x0 x1 s px j /\
    ((exists d, row_dist x0 x1 y0 E i s px py d /\ (d = 0 \/ d < 2 * heights E) /\
        forall k t dk, nth_error E k = Some t -> row_dist x0 x1 y0 E k t px py dk ->
          d <= dk /\ ((k < i)%nat -> d < dk)) \/
     (i = 0%nat /\ forall k t dk, nth_error E k = Some t -> row_dist x0 x1 y0 E k t px py dk ->
          0 < dk /\ 2 * heights E <= dk)).
Proof. exact rect_old. Qed.
Print Assumptions C87_old_nearest.

(** C87: without rows it reads a row that does not exist. *)
Theorem C87_old_no_rows_undefined : forall x0 x1 y0 h l, built x0 x1 y0 h l -> expected_rows x0 x1 h = [] ->
  forall x y, getNearestPadOld l x y = UB.
Proof. exact rect_old_empty. Qed.
Print Assumptions C87_old_no_rows_undefined.

(** C87: it finds every pad from its centre, whatever the heights and offsets of the rows. *)
Theorem C87_old_own_pad : forall x0 x1 y0 h l, built x0 x1 y0 h l ->
  let E := expected_rows x0 x1 h in indexable E ->
  forall i s j p, nth_error E i = Some s -> (0 <= j < s_n s)%Z -> getPadIndex l (Z.of_nat i) j = Ok p ->
  0 < s_h s -> (s_n s = 1%Z \/ 0 < pitch x0 x1 s) ->
  exists cx cy, getPadCenter l p = Ok (cx, cy) /\ getNearestPadOld l cx cy = Ok p.
Proof. exact rect_old_own. Qed.
Print Assumptions C87_old_own_pad.

(** C87: if no row has offsets and one row is nearer than all others, a pad found by getNearestPad is the one
    found by the old search. *)
Theorem C87_old_agrees : forall x0 x1 y0 h l, built x0 x1 y0 h l ->
  let E := expected_rows x0 x1 h in indexable E -> 0 < heights E -> x0 < x1 ->
  Forall (fun s => s_left s = 0 /\ s_right s = 0) E ->
  forall x y i s, nth_error E i = Some s ->
  let py := clampR y0 (y0 + heights E) y in
  (forall k t, nth_error E k = Some t -> k <> i -> metal_gap y0 E i s py < metal_gap y0 E k t py) ->
  forall fuel p, getNearestPad fuel l x y = Some (Ok p) -> getNearestPadOld l x y = Ok p.
Proof. exact rect_old_agrees. Qed.
Print Assumptions C87_old_agrees.

(** Layouts of two rows with [n] pads each, one of them with an offset at the left. *)
Definition two_calls (w a b : R) : list rect_call :=
  [CAdd (mkAdd 1 2 (1/2) 1 0 a 0); CAdd (mkAdd 1 2 (1/2) 1 0 b 0)].
Definition two_row (a : R) : srow := mkS 2 (1/2) 1 1 a 0.
Lemma two_built : forall w a b, 0 <= a -> 0 <= b -> a + 1 <= w -> b + 1 <= w -> exists l,
  built 0 w 0 (two_calls w a b) l /\ expected_rows 0 w (two_calls w a b) = [two_row a; two_row b] /\
  indexable [two_row a; two_row b].
Proof.
  intros w a b Ha Hb Hw Hv.
  assert (HL : Forall legal_call (two_calls w a b)) by (unfold two_calls; repeat (apply Forall_cons; [simpl; repeat split; try lra; try lia|]); apply Forall_nil).
  destruct (do_calls_rep 0 w 0 _ _ _ _ _ (rep_new 0 w 0) HL) as [l [Hl _]].
  exists l. split; [split; assumption|]. split.
  - unfold expected_rows, expected, two_calls. cbn [fold_left].
    unfold expect1 at 2. rewrite if_wf by (unfold width_fits; cbn [srow_of s_n s_padW s_left s_right a_nPad a_padWidth a_left a_right]; lra).
    unfold srow_of. cbn [a_nPad a_padWidth a_padHeight a_left a_right]. rewrite asked_z by reflexivity. cbn [a_padHeight].
    rewrite if_hf by (unfold height_fits; cbn; lra).
    unfold expect1. rewrite if_wf by (unfold width_fits; cbn [srow_of s_n s_padW s_left s_right a_nPad a_padWidth a_left a_right]; lra).
    unfold srow_of. cbn [a_nPad a_padWidth a_padHeight a_left a_right]. rewrite asked_z by reflexivity. cbn [a_padHeight].
    rewrite if_hf by (unfold height_fits; cbn; lra). reflexivity.
  - split; [simpl; lia|]. repeat constructor; simpl; lia.
Qed.

(** A layout and a point as in C87_old_agrees, and one as in C87_old_own_pad where getNearestPad never returns. *)
Example old_demo : exists l i s p, built 0 4 0 (two_calls 4 0 0) l /\
  let E := expected_rows 0 4 (two_calls 4 0 0) in
  indexable E /\ 0 < heights E /\ Forall (fun s => s_left s = 0 /\ s_right s = 0) E /\ nth_error E i = Some s /\
  (forall k t, nth_error E k = Some t -> k <> i ->
     metal_gap 0 E i s (clampR 0 (0 + heights E) (1/4)) < metal_gap 0 E k t (clampR 0 (0 + heights E) (1/4))) /\
  getNearestPad 2 l 1 (1/4) = Some (Ok p).
Proof.
  destruct (two_built 4 0 0) as (l & Hb & He & HI); try lra.
  destruct (rect_nearest_uniform 0 4 0 _ l Hb) with (H := 1) (x := 1) (y := 1/4) as (i & s & j & p & Hp & _).
  - rewrite He. exact HI.
  - rewrite He. repeat constructor.
  - lra.
  - rewrite He. discriminate.
  - rewrite He. repeat constructor.
  - exists l, 0%nat, (two_row 0), p. split; [exact Hb|]. cbv zeta. rewrite He. split; [exact HI|]. split; [simpl; lra|].
    split; [repeat constructor; reflexivity|]. split; [reflexivity|]. split; [|exact Hp].
    assert (Hc : clampR 0 (0 + heights [two_row 0; two_row 0]) (1/4) = 1/4) by (apply clampR_in; cbn; lra).
    rewrite Hc. intros [|[|k]] t Ht Hk; [congruence| |destruct k; discriminate].
    injection Ht as <-. unfold metal_gap, bottom. cbn [firstn heights two_row s_h s_padH]. cbv zeta.
    unfold clampR, Rmax, Rmin. repeat destruct Rle_dec; unfold Rabs; repeat destruct Rcase_abs; lra.
Qed.
Example old_where_new_hangs : exists l p, built 0 1 0 hang_calls l /\
  let E := expected_rows 0 1 hang_calls in indexable E /\ E <> [] /\
  nth_error E 4 = Some (srow1 10) /\ getPadIndex l 4 0 = Ok p /\
  getPadCenter l p = Ok (1/2, 9) /\ getNearestPadOld l (1/2) 9 = Ok p /\
  forall fuel, getNearestPad fuel l (1/2) 9 = None.
Proof.
  destruct hang_built as [l Hb]. pose proof (built_rep _ _ _ _ _ Hb) as HR.
  assert (He : expected_rows 0 1 hang_calls = hang_rows) by (unfold expected_rows; now rewrite hang_expected).
  rewrite He in HR. pose proof hang_indexable as HI.
  assert (Hs : nth_error hang_rows 4 = Some (srow1 10)) by reflexivity.
  destruct (c08_pad HR HI 4%nat (srow1 10) 0 Hs ltac:(cbn; lia)) as (Hc & _ & _ & _ & _ & _ & Hce). cbv zeta in *.
  exists l, (code 4 0). split; [exact Hb|]. cbv zeta. rewrite He. split; [exact HI|]. split; [discriminate|].
  split; [exact Hs|]. split; [exact Hc|].
  assert (Hx : getPadCenter l (code 4 0) = Ok (1/2, 9)).
  { change (Z.of_nat 4) with 4%Z in Hce. rewrite Hce. unfold cell_left, pitch, bottom, hang_rows, srow1.
    cbn [firstn heights s_h s_n s_left s_right]. do 2 f_equal; lra. }
  split; [exact Hx|]. split; [|intros fuel; now apply hang_nearest].
  destruct (rect_old_own 0 1 0 hang_calls l Hb) with (i := 4%nat) (s := srow1 10) (j := 0%Z) (p := code 4 0) as (cx & cy & K1 & K2).
  - rewrite He. exact HI.
  - rewrite He. exact Hs.
  - cbn; lia.
  - exact Hc.
  - cbn; lra.
  - now left.
  - rewrite Hx in K1. injection K1 as <- <-. exact K2.
Qed.

(** C87, defect of getNearestPad: it goes by the height of the point alone.  Left of the offset of a row it
    returns a pad of this row although a pad of the row above is nearer; the old search returns the latter. *)
Theorem C87_offset_not_nearest_refuted : exists x0 x1 y0 h l x y p q i j,
  built x0 x1 y0 h l /\ indexable (expected_rows x0 x1 h) /\ full_height (expected_rows x0 x1 h) /\
  getNearestPad 2 l x y = Some (Ok p) /\ getNearestPadOld l x y = Ok q /\
  getPadIndex l 0 i = Ok p /\ getPadIndex l 1 j = Ok q /\
  exists dp dq, getDistanceToPad l x y p = Ok dp /\ getDistanceToPad l x y q = Ok dq /\ dq < 3 /\ 4 < dp.
Proof.
  destruct (two_built 10 5 0) as (l & Hb & He & HI); try lra.
  pose proof (built_rep _ _ _ _ _ Hb) as HR. rewrite He in HR.
  assert (HF : full_height [two_row 5; two_row 0]) by (repeat constructor).
  assert (Hy : clampR 0 (0 + heights [two_row 5; two_row 0]) (9/10) = 9/10) by (apply clampR_in; cbn; lra).
  assert (Hx : clampR 0 10 0 = 0) by (apply clampR_in; lra).
  assert (N0 : nth_error [two_row 5; two_row 0] 0 = Some (two_row 5)) by reflexivity.
  assert (N1 : nth_error [two_row 5; two_row 0] 1 = Some (two_row 0)) by reflexivity.
  destruct (rect_nearest_uniform 0 10 0 _ l Hb) with (H := 1) (x := 0) (y := 9/10) as (i & s & j & p & Hp & Hpi & Hat).
  { rewrite He. exact HI. } { rewrite He. exact HF. } { lra. } { rewrite He. discriminate. } { rewrite He. repeat constructor. }
  rewrite He, Hx, Hy in Hat. destruct Hat as (A1 & A2 & A3 & A4 & _).
  assert (Ei : i = 0%nat).
  { destruct i as [|[|i]]; [reflexivity| |destruct i; discriminate]. exfalso. unfold bottom in A3. cbn [firstn heights two_row s_h] in A3. lra. }
  subst i. injection A1 as <-. cbn [two_row s_left] in A4. specialize (A4 ltac:(lra)). subst j.
  destruct (rect_old 0 10 0 _ l Hb) with (x := 0) (y := 9/10) as (i & s & j & q & Q1 & Q2 & Q3 & Q4 & Q5).
  { rewrite He. exact HI. } { rewrite He. discriminate. }
  rewrite He, Hx, Hy in *.
  assert (D1 : row_dist 0 10 0 [two_row 5; two_row 0] 1 (two_row 0) 0 (9/10) (1/10)).
  { unfold row_dist, bottom. cbv zeta. cbn [firstn heights two_row s_h s_padH s_left s_right].
    replace (1/10) with (Rabs (9/10 - clampR (0 + (1 + 0) + 1 / 2 - 1 / 2) (0 + (1 + 0) + 1 / 2 + 1 / 2) (9/10))).
    - apply box_dist_gap; lra.
    - unfold clampR, Rmax, Rmin. repeat destruct Rle_dec; try lra. unfold Rabs. destruct Rcase_abs; lra. }
  assert (Ei : i = 1%nat).
  { destruct Q5 as [(d & F1 & F2 & F3)|(_ & F)].
    - destruct (F3 _ _ _ N1 D1) as [F4 _]. destruct i as [|[|i]]; [exfalso|reflexivity|destruct i; discriminate].
      injection Q3 as <-. destruct F1 as [(u & v & U1 & U2 & U3) _]. cbn [two_row s_left s_right] in U1.
      assert (5 <= dist2 0 (9/10) u v).
      { unfold dist2. apply sqrt_le_of_sq; [lra|]. pose proof (Rle_0_sqr (9/10 - v)) as Z0. unfold Rsqr in Z0.
        assert (5 * 5 <= u * u) by (apply Rmult_le_compat; lra). replace ((0 - u) * (0 - u)) with (u * u) by ring. lra. }
      lra.
    - destruct (F _ _ _ N1 D1) as [_ F1]. cbn [heights two_row s_h] in F1. lra. }
  subst i. injection Q3 as <-.
  assert (Ej : j = 0%Z).
  { destruct Q4 as (J1 & J2 & J3 & J4). cbn [two_row s_left s_right s_n] in *. specialize (J4 ltac:(lra)).
    unfold cell_left, pitch in J4. cbn [two_row s_left s_right s_n] in J4.
    destruct (Z.eq_dec j 0) as [|Hj]; [assumption|exfalso]. assert (j = 1)%Z by lia. subst j. lra. }
  subst j. change (Z.of_nat 0) with 0%Z in *. change (Z.of_nat 1) with 1%Z in *.
  exists 0, 10, 0, (two_calls 10 5 0), l, 0, (9/10), p, q, 0%Z, 0%Z. rewrite He.
  split; [exact Hb|]. split; [exact HI|]. split; [exact HF|]. split; [exact Hp|]. split; [exact Q1|]. split; [exact Hpi|]. split; [exact Q2|].
  pose proof (getPadIndex_code HR HI 0%nat 0 _ N0 ltac:(cbn; lia)) as C0. pose proof (getPadIndex_code HR HI 1%nat 0 _ N1 ltac:(cbn; lia)) as C1.
  change (Z.of_nat 0) with 0%Z in *. change (Z.of_nat 1) with 1%Z in *. rewrite C0 in Hpi. rewrite C1 in Q2. injection Hpi as <-. injection Q2 as <-.
  destruct (getDistanceToPad_euclid _ _ _ _ _ _ _ HR HI 0%nat _ 0 0 (9/10) N0 ltac:(cbn; lia)) as (dp & E1 & [(u & v & U1 & U2 & U3) _]).
  destruct (getDistanceToPad_euclid _ _ _ _ _ _ _ HR HI 1%nat _ 0 0 (9/10) N1 ltac:(cbn; lia)) as (dq & E2 & [_ L2]).
  change (Z.of_nat 0) with 0%Z in *. change (Z.of_nat 1) with 1%Z in *.
  exists dp, dq. split; [exact E1|]. split; [exact E2|].
  unfold cell_left, pitch, bottom in *. cbn [firstn heights two_row s_h s_n s_left s_right s_padW s_padH] in *. split.
  - specialize (L2 (5/2) 1 ltac:(lra) ltac:(lra)).
    apply Rle_lt_trans with (1 := L2). unfold dist2. rewrite <- (sqrt_square 3) by lra. apply sqrt_lt_1_alt. lra.
  - rewrite <- U3. unfold dist2. apply Rlt_le_trans with 5; [lra|]. apply sqrt_le_of_sq; [lra|].
    pose proof (Rle_0_sqr (9/10 - v)) as Z0. unfold Rsqr in Z0.
    assert (5 * 5 <= u * u) by (apply Rmult_le_compat; lra). replace ((0 - u) * (0 - u)) with (u * u) by ring. lra.
Qed.
Print Assumptions C87_offset_not_nearest_refuted.

(** C87, defect of the old search: its first best distance is twice the height of the plane.  Further than this from
    all pads it returns a pad of the bottom row, nearest or not. *)
Theorem C87_old_far_refuted : exists x0 x1 y0 h l x y q i,
  built x0 x1 y0 h l /\ indexable (expected_rows x0 x1 h) /\
  x0 <= x <= x1 /\ y0 <= y <= y0 + heights (expected_rows x0 x1 h) /\
  getNearestPadOld l x y = Ok q /\ getPadIndex l 0 i = Ok q /\
  exists p dp dq, getPadIndex l 1 i = Ok p /\
    getDistanceToPad l x y p = Ok dp /\ getDistanceToPad l x y q = Ok dq /\ dp < 64 /\ 90 <= dq.
Proof.
  destruct (two_built 100 90 50) as (l & Hb & He & HI); try lra.
  pose proof (built_rep _ _ _ _ _ Hb) as HR. rewrite He in HR.
  assert (Hy : clampR 0 (0 + heights [two_row 90; two_row 50]) (1/2) = 1/2) by (apply clampR_in; cbn; lra).
  assert (Hx : clampR 0 100 0 = 0) by (apply clampR_in; lra).
  assert (N0 : nth_error [two_row 90; two_row 50] 0 = Some (two_row 90)) by reflexivity.
  assert (N1 : nth_error [two_row 90; two_row 50] 1 = Some (two_row 50)) by reflexivity.
  destruct (rect_old 0 100 0 _ l Hb) with (x := 0) (y := 1/2) as (i & s & j & q & Q1 & Q2 & Q3 & Q4 & Q5).
  { rewrite He. exact HI. } { rewrite He. discriminate. }
  rewrite He, Hx, Hy in *.
  assert (Far : forall u v, 50 <= u -> 50 <= dist2 0 (1/2) u v).
  { intros u v Hu. unfold dist2. apply sqrt_le_of_sq; [lra|]. pose proof (Rle_0_sqr (1/2 - v)) as Z0. unfold Rsqr in Z0.
    assert (50 * 50 <= u * u) by (apply Rmult_le_compat; lra). replace ((0 - u) * (0 - u)) with (u * u) by ring. lra. }
  assert (Ei : i = 0%nat).
  { destruct Q5 as [(d & F1 & F2 & F3)|(F & _)]; [exfalso|exact F].
    destruct F1 as [(u & v & U1 & U2 & U3) _].
    assert (50 <= u). { destruct i as [|[|i]]; [| |destruct i; discriminate]; injection Q3 as <-; cbn [two_row s_left s_right] in U1; lra. }
    pose proof (Far u v H). cbn [heights two_row s_h] in F2. lra. }
  subst i. injection Q3 as <-. destruct Q4 as (J1 & J2 & _). cbn [two_row s_left s_n] in *. specialize (J2 ltac:(lra)). subst j.
  pose proof (getPadIndex_code HR HI 0%nat 0 _ N0 ltac:(cbn; lia)) as C0. pose proof (getPadIndex_code HR HI 1%nat 0 _ N1 ltac:(cbn; lia)) as C1.
  change (Z.of_nat 0) with 0%Z in *. change (Z.of_nat 1) with 1%Z in *. rewrite C0 in Q2. injection Q2 as <-.
  exists 0, 100, 0, (two_calls 100 90 50), l, 0, (1/2), (code 0 0), 0%Z. rewrite He.
  split; [exact Hb|]. split; [exact HI|]. split; [lra|]. split; [cbn; lra|]. split; [exact Q1|]. split; [exact C0|].
  destruct (getDistanceToPad_euclid _ _ _ _ _ _ _ HR HI 0%nat _ 0 0 (1/2) N0 ltac:(cbn; lia)) as (dq & E1 & [(u & v & U1 & U2 & U3) _]).
  destruct (getDistanceToPad_euclid _ _ _ _ _ _ _ HR HI 1%nat _ 0 0 (1/2) N1 ltac:(cbn; lia)) as (dp & E2 & [_ L2]).
  change (Z.of_nat 0) with 0%Z in *. change (Z.of_nat 1) with 1%Z in *.
  exists (code 1 0), dp, dq. split; [exact C1|]. split; [exact E2|]. split; [exact E1|].
  unfold cell_left, pitch, bottom in *. cbn [firstn heights two_row s_h s_n s_left s_right s_padW s_padH] in *. split.
  - specialize (L2 (50 + 25/2) 1 ltac:(lra) ltac:(lra)).
    apply Rle_lt_trans with (1 := L2). unfold dist2. rewrite <- (sqrt_square 64) by lra. apply sqrt_lt_1_alt. lra.
  - rewrite <- U3. unfold dist2. apply sqrt_le_of_sq; [lra|].
    pose proof (Rle_0_sqr (1/2 - v)) as Z0. unfold Rsqr in Z0.
    assert (90 * 90 <= u * u) by (apply Rmult_le_compat; lra). replace ((0 - u) * (0 - u)) with (u * u) by ring. lra.
Qed.
Print Assumptions C87_old_far_refuted.
