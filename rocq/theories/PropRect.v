(** C07-C13, C51, C52: RectangularPadRowLayout. *)
From Coq Require Import ZArith List String Bool Reals Lra Lia.
From Verif Require Import Base RBase RectModel RectSpec RectProofs RectProofs2 RectProofs3 RectProofs4 RectProofs5 RectProofs6.
Import ListNotations.
Open Scope R_scope.

Local Ltac legal :=
  repeat (apply Forall_cons; [simpl; repeat split; try lra; try lia|]); apply Forall_nil.

(** A layout with two rows of four pads repeated three times, after a pad list was asked for.
    It meets the hypotheses used below. *)
Definition demo_calls : list rect_call :=
  [CAdd (mkAdd 2 4 (9/10) 2 0 0 0); CRepeat 3; CPads 1].
Definition demo_row : srow := mkS 4 (9/10) 2 2 0 0.
Example demo_rows : expected_rows 0 4 demo_calls = repeat demo_row 6.
Proof.
  unfold expected_rows, expected, demo_calls. cbn [fold_left]. unfold expect1 at 3.
  rewrite if_wf by (unfold width_fits; simpl; lra).
  unfold srow_of. cbn [a_nPad a_padWidth a_padHeight a_left a_right].
  rewrite asked_z by reflexivity. cbn [a_padHeight].
  rewrite if_hf by (unfold height_fits; simpl; lra). reflexivity.
Qed.
Example demo_built : exists l, built 0 4 0 demo_calls l /\
  indexable (expected_rows 0 4 demo_calls) /\ full_height (expected_rows 0 4 demo_calls) /\
  expected_rows 0 4 demo_calls <> [] /\ Forall (fun s => s_h s = 2) (expected_rows 0 4 demo_calls) /\
  0 < heights (expected_rows 0 4 demo_calls) /\
  nth_error (expected_rows 0 4 demo_calls) 5 = Some demo_row.
Proof.
  assert (HL : Forall legal_call demo_calls) by (unfold demo_calls; legal).
  destruct (do_calls_rep 0 4 0 demo_calls _ _ _ _ (rep_new 0 4 0) HL) as [l [Hl _]].
  exists l. split; [split; auto|]. rewrite demo_rows. unfold indexable, full_height.
  repeat split; try (simpl; lia); try (simpl; lra); try discriminate; repeat constructor; simpl; lia.
Qed.
(** without the repetition: for C13 *)
Example demo_no_repeat : exists l, built 0 4 0 [CAdd (mkAdd 2 4 (9/10) 2 0 0 0); CPads 1] l /\
  no_repeat [CAdd (mkAdd 2 4 (9/10) 2 0 0 0); CPads 1].
Proof.
  assert (HL : Forall legal_call [CAdd (mkAdd 2 4 (9/10) 2 0 0 0); CPads 1]) by legal.
  destruct (do_calls_rep 0 4 0 _ _ _ _ _ (rep_new 0 4 0) HL) as [l [Hl _]].
  exists l. split; [split; auto|]. intros n [H|[H|[]]]; discriminate.
Qed.
(** pads lower than their row: for C09_low_pads_undefined *)
Example demo_low : exists l, built 0 4 0 [CAdd (mkAdd 1 4 (9/10) 1 2 0 0)] l /\
  nth_error (expected_rows 0 4 [CAdd (mkAdd 1 4 (9/10) 1 2 0 0)]) 0 = Some (mkS 4 (9/10) 1 2 0 0) /\
  0 < heights (expected_rows 0 4 [CAdd (mkAdd 1 4 (9/10) 1 2 0 0)]).
Proof.
  assert (HL : Forall legal_call [CAdd (mkAdd 1 4 (9/10) 1 2 0 0)]) by legal.
  destruct (do_calls_rep 0 4 0 _ _ _ _ _ (rep_new 0 4 0) HL) as [l [Hl _]].
  exists l. split; [split; auto|].
  assert (He : expected_rows 0 4 [CAdd (mkAdd 1 4 (9/10) 1 2 0 0)] = [mkS 4 (9/10) 1 2 0 0]).
  { unfold expected_rows, expected. cbn [fold_left]. unfold expect1.
    rewrite if_wf by (unfold width_fits; simpl; lra).
    unfold srow_of. cbn [a_nPad a_padWidth a_padHeight a_left a_right].
    rewrite asked_nz by (simpl; lra). cbn [a_rowHeight].
    rewrite if_hf by (unfold height_fits; simpl; lra). reflexivity. }
  rewrite He. split; [reflexivity|simpl; lra].
Qed.
(** a row with more than 65536 pads: for C07_rect_alias_beyond_65536 *)
Example demo_wide : exists l, built 0 1 0 [CAdd (mkAdd 1 70000 0 1 0 0 0)] l /\
  nth_error (expected_rows 0 1 [CAdd (mkAdd 1 70000 0 1 0 0 0)]) 0 = Some (mkS 70000 0 1 1 0 0).
Proof.
  assert (HL : Forall legal_call [CAdd (mkAdd 1 70000 0 1 0 0 0)]) by legal.
  destruct (do_calls_rep 0 1 0 _ _ _ _ _ (rep_new 0 1 0) HL) as [l [Hl _]].
  exists l. split; [split; auto|].
  unfold expected_rows, expected. cbn [fold_left]. unfold expect1.
  rewrite if_wf by (unfold width_fits; simpl; lra).
  unfold srow_of. cbn [a_nPad a_padWidth a_padHeight a_left a_right].
  rewrite asked_z by reflexivity. cbn [a_padHeight].
  rewrite if_hf by (unfold height_fits; simpl; lra). reflexivity.
Qed.

(** C07 (rectangular layout): the pad index of every valid (row, pad) gives row and pad back, and no
    other valid (row, pad) has the same index. *)
Theorem C07_rect_index_lossless : forall x0 x1 y0 h l, built x0 x1 y0 h l ->
  indexable (expected_rows x0 x1 h) ->
  forall i s j, nth_error (expected_rows x0 x1 h) i = Some s -> (0 <= j < s_n s)%Z ->
  exists p, getPadIndex l (Z.of_nat i) j = Ok p /\
    getRowNumber l p = Ok (Z.of_nat i) /\ getPadNumber p = j /\
    forall i' s' j', nth_error (expected_rows x0 x1 h) i' = Some s' -> (0 <= j' < s_n s')%Z ->
      getPadIndex l (Z.of_nat i') j' = Ok p -> i' = i /\ j' = j.
Proof. exact rect_index_lossless. Qed.
Print Assumptions C07_rect_index_lossless.

(** C07, limits: a negative pad number is not refused; it yields the index of pad [j + 65536]. *)
Theorem C07_rect_negative_pad_accepted : forall x0 x1 y0 h l, built x0 x1 y0 h l ->
  indexable (expected_rows x0 x1 h) ->
  forall i s j, nth_error (expected_rows x0 x1 h) i = Some s -> (-65536 <= j < 0)%Z ->
  exists p, getPadIndex l (Z.of_nat i) j = Ok p /\ getPadNumber p = (j + 65536)%Z.
Proof. exact rect_negative_pad. Qed.
Print Assumptions C07_rect_negative_pad_accepted.

(** C07, limits: in a row with more than 65536 pads, pad [j + 65536] has the index of pad [j]. *)
Theorem C07_rect_alias_beyond_65536 : forall x0 x1 y0 h l, built x0 x1 y0 h l ->
  forall i s j, nth_error (expected_rows x0 x1 h) i = Some s ->
  (Z.of_nat (List.length (expected_rows x0 x1 h)) <= 65536)%Z ->
  (0 <= j)%Z -> (j + 65536 < s_n s)%Z ->
  getPadIndex l (Z.of_nat i) (j + 65536) = getPadIndex l (Z.of_nat i) j /\
  exists p, getPadIndex l (Z.of_nat i) j = Ok p.
Proof. exact rect_alias. Qed.
Print Assumptions C07_rect_alias_beyond_65536.

(** C08: after any history of calls the rows are the accepted ones in order, stacked from yMin without
    gap or overlap; the extent ends at the top of the last row; the metal of every pad lies inside
    its cell and the cells inside the row's x range; getNPads is the number of pads of all rows plus
    the pads of the calls refused for their height. *)
Theorem C08_rows_tile : forall x0 x1 y0 h l, built x0 x1 y0 h l ->
  let E := expected_rows x0 x1 h in
  getNRows l = Z.of_nat (List.length E) /\
  getPlaneExtent l = [x0; x1; y0; y0 + heights E] /\
  getNPads l = (total_pads E + refused_pads x0 x1 h)%Z /\
  forall i s, nth_error E i = Some s ->
    getRowHeight l (Z.of_nat i) = Ok (s_h s) /\
    bottom y0 E (S i) = bottom y0 E i + s_h s /\
    (indexable E -> forall j, (0 <= j < s_n s)%Z -> exists p cx cy,
       getPadIndex l (Z.of_nat i) j = Ok p /\
       getPadHeight l p = Ok (s_padH s) /\ getPadWidth l p = Ok (s_padW s) /\
       getPadPitch l p = Ok (pitch x0 x1 s) /\ getPadCenter l p = Ok (cx, cy) /\
       cy = bottom y0 E i + s_h s / 2 /\
       bottom y0 E i <= cy - s_padH s / 2 /\ cy + s_padH s / 2 <= bottom y0 E (S i) /\
       cx = cell_left x0 x1 s j + pitch x0 x1 s / 2 /\
       cell_left x0 x1 s j <= cx - s_padW s / 2 /\ cx + s_padW s / 2 <= cell_left x0 x1 s (j + 1) /\
       x0 + s_left s <= cell_left x0 x1 s j /\ cell_left x0 x1 s (j + 1) <= x1 - s_right s).
Proof. exact rect_rows_tile. Qed.
Print Assumptions C08_rows_tile.

(** C08, defect: getNPads is not always the number of pads of the rows. *)
Theorem C08_npads_refuted : exists x0 x1 y0 h l, built x0 x1 y0 h l /\
  getNPads l <> total_pads (expected_rows x0 x1 h).
Proof. exact rect_npads_refuted. Qed.
Print Assumptions C08_npads_refuted.

(** C09: in a layout whose pads fill the height of their rows (of any heights), whenever
    getNearestPad returns, it returns the pad whose cell contains the point moved to the plane. *)
Theorem C09_nearest_sound : forall x0 x1 y0 h l, built x0 x1 y0 h l ->
  let E := expected_rows x0 x1 h in
  indexable E -> full_height E -> 0 < heights E ->
  forall fuel x y r, getNearestPad fuel l x y = Some r ->
  exists i s j p, r = Ok p /\ getPadIndex l (Z.of_nat i) j = Ok p /\
    pad_at x0 x1 y0 E (clampR x0 x1 x) (clampR y0 (y0 + heights E) y) i s j.
Proof. exact rect_nearest_sound. Qed.
Print Assumptions C09_nearest_sound.

(** C09: with rows of one height it always returns, after at most two turns of its loop. *)
Theorem C09_nearest_uniform_total : forall x0 x1 y0 h l, built x0 x1 y0 h l ->
  let E := expected_rows x0 x1 h in
  indexable E -> full_height E -> forall H, 0 < H -> E <> [] -> Forall (fun s => s_h s = H) E ->
  forall x y, exists i s j p, getNearestPad 2 l x y = Some (Ok p) /\
    getPadIndex l (Z.of_nat i) j = Ok p /\
    pad_at x0 x1 y0 E (clampR x0 x1 x) (clampR y0 (y0 + heights E) y) i s j.
Proof. exact rect_nearest_uniform. Qed.
Print Assumptions C09_nearest_uniform_total.

(** C09, defect: with rows of different heights the search can go back and forth for ever. *)
Theorem C09_nearest_terminates_refuted : exists x0 x1 y0 h l,
  built x0 x1 y0 h l /\ indexable (expected_rows x0 x1 h) /\ full_height (expected_rows x0 x1 h) /\
  exists y, y0 <= y <= y0 + heights (expected_rows x0 x1 h) /\
    forall fuel x, getNearestPad fuel l x y = None.
Proof. exact rect_nearest_hangs. Qed.
Print Assumptions C09_nearest_terminates_refuted.

(** C09: pads lower than their rows.  Two rows of height 2 with pads of height 1; the point lies between
    the pads of the two rows. *)
Example demo_between : exists l p, built 0 4 0 [CAdd (mkAdd 2 4 (9/10) 1 2 0 0)] l /\
  indexable (expected_rows 0 4 [CAdd (mkAdd 2 4 (9/10) 1 2 0 0)]) /\ 0 < heights (expected_rows 0 4 [CAdd (mkAdd 2 4 (9/10) 1 2 0 0)]) /\
  getNearestPad 2 l 1 (9/5) = Some (Ok p).
Proof.
  assert (HL : Forall legal_call [CAdd (mkAdd 2 4 (9/10) 1 2 0 0)]) by legal.
  destruct (do_calls_rep 0 4 0 _ _ _ _ _ (rep_new 0 4 0) HL) as [l [Hl _]].
  assert (Hb : built 0 4 0 [CAdd (mkAdd 2 4 (9/10) 1 2 0 0)] l) by (split; auto).
  pose proof (built_rep _ _ _ _ _ Hb) as HR.
  set (s := mkS 4 (9/10) 1 2 0 0).
  assert (He : expected_rows 0 4 [CAdd (mkAdd 2 4 (9/10) 1 2 0 0)] = [s; s]).
  { unfold expected_rows, expected. cbn [fold_left]. unfold expect1.
    rewrite if_wf by (unfold width_fits; simpl; lra).
    unfold srow_of. cbn [a_nPad a_padWidth a_padHeight a_left a_right].
    rewrite asked_nz by (simpl; lra). cbn [a_rowHeight].
    rewrite if_hf by (unfold height_fits; simpl; lra). reflexivity. }
  assert (HI : indexable [s; s]) by (unfold indexable; split; [simpl; lia|repeat constructor; simpl; lia]).
  rewrite He in HR. rewrite He.
  assert (Hpos : 0 < heights [s; s]) by (simpl; lra).
  destruct (nearest_unfold HR HI Hpos 2 1 (9/5)) as (i & Hi & _ & Heq). cbv zeta in Heq.
  assert (Ey : clampR 0 (0 + heights [s; s]) (9 / 5) = 9 / 5) by (unfold clampR, Rmax, Rmin; simpl; repeat destruct Rle_dec; lra).
  rewrite Ey in Heq.
  assert (R0 : nthZ (_rows l) 0 = Some (row_at 0 4 (bottom 0 [s; s] 0) s)) by exact (sub_rows _ _ _ _ _ _ _ 0%nat HR).
  assert (R1 : nthZ (_rows l) 1 = Some (row_at 0 4 (bottom 0 [s; s] 1) s)) by exact (sub_rows _ _ _ _ _ _ _ 1%nat HR).
  assert (C0 : Center (row_at 0 4 (bottom 0 [s; s] 0) s) = 1) by (cbn; unfold bottom; cbn; lra).
  assert (C1 : Center (row_at 0 4 (bottom 0 [s; s] 1) s) = 3) by (cbn; unfold bottom; cbn; lra).
  assert (P0 : forall b, PadHeight (row_at 0 4 b s) = 1) by reflexivity.
  assert (P1 : forall b, Height (row_at 0 4 b s) = 2) by reflexivity.
  assert (E2 : ext2 l = 0) by apply (rep_e2 _ _ _ _ _ _ _ HR).
  assert (A0 : Rabs (9 / 5 - 1) = 4 / 5) by (rewrite Rabs_pos_eq; lra).
  assert (A1 : Rabs (9 / 5 - 3) = 6 / 5) by (rewrite Rabs_left; lra).
  assert (Es : forall f, search_row (S f) l (9/5) 0 = Some (Ok 0%Z)).
  { intros f. cbn [search_row]. rewrite R0. cbv zeta. rewrite C0, P0, P1, A0.
    destruct (Rleb_spec (4 / 5) (1 / 2)); [lra|]. destruct (Rleb_spec (4 / 5) (2 / 2)); [|lra].
    destruct (Rltb_spec (9 / 5 - 1) 0); [lra|]. change (0 + 1)%Z with 1%Z. rewrite R1, C1, P0, A1.
    destruct (Rltb_spec (6 / 5 - 1 / 2) (4 / 5 - 1 / 2)); [lra|reflexivity]. }
  assert (Et : search_row 2 l (9/5) (Z.of_nat i) = Some (Ok 0%Z)).
  { destruct i as [|[|i]]; [apply Es| |simpl in Hi; lia]. rewrite <- (Es 0%nat). change (Z.of_nat 1) with 1%Z.
    remember 1%nat as n1 eqn:En. cbn [search_row]. rewrite R1. cbv zeta. rewrite C1, P0, P1, A1, E2.
    destruct (Rleb_spec (6 / 5) (1 / 2)); [lra|]. destruct (Rleb_spec (6 / 5) (2 / 2)); [lra|].
    destruct (Rltb_spec (9 / 5 - 3) 0); [|lra]. destruct (Reqb_spec (3 - 0 - 2 / 2) 0); [lra|].
    replace (1 * ((9 / 5 - 3 + 2 / 2) / (3 - 0 - 2 / 2))) with (- (1 / 10)) by lra.
    destruct (Rltb_spec (- (1 / 10)) 0) as [K|K]; [|lra].
    rewrite (Flocq.Core.Raux.Zfloor_imp (-1) (- (1 / 10))) by (simpl; lra). subst n1. reflexivity. }
  rewrite Et in Heq.
  destruct (pad_in_row_ok _ _ _ _ _ _ _ HR HI 0%nat s (clampR 0 4 1) eq_refl) as (j & Hj & Hjr & _).
  assert (Sr : sub (_rows l) 0 = Ok (row_at 0 4 (bottom 0 [s; s] 0) s)) by exact (sub_row HR 0%nat s eq_refl).
  pose proof (getPadIndex_code HR HI 0%nat j s eq_refl Hjr) as Hc. change (Z.of_nat 0) with 0%Z in Hc.
  rewrite Sr in Heq. cbn [rbind] in Heq. rewrite Hj in Heq. cbn [rbind] in Heq. rewrite Hc in Heq.
  exists l; eexists. split; [exact Hb|]. split; [exact HI|]. split; [exact Hpos|exact Heq].
Qed.
(** C09: whatever the heights, a pad that is returned lies in a row whose pads are nearest of all to the
    point moved to the plane, and is the right one in this row. *)
Theorem C09_nearest_row : forall x0 x1 y0 h l, built x0 x1 y0 h l ->
  let E := expected_rows x0 x1 h in
  indexable E -> 0 < heights E ->
  forall fuel x y p, getNearestPad fuel l x y = Some (Ok p) ->
  exists i s j, getPadIndex l (Z.of_nat i) j = Ok p /\ nth_error E i = Some s /\ pad_across x0 x1 s (clampR x0 x1 x) j /\
    forall i' s', nth_error E i' = Some s' ->
      metal_gap y0 E i s (clampR y0 (y0 + heights E) y) <= metal_gap y0 E i' s' (clampR y0 (y0 + heights E) y).
Proof. exact rect_nearest_low. Qed.
Print Assumptions C09_nearest_row.

(** C09, defect: if the pads of the bottom (top) row are lower than the row, every point at or beyond
    the bottom (top) edge makes the search read a row that does not exist. *)
Theorem C09_low_pads_undefined : forall x0 x1 y0 h l, built x0 x1 y0 h l ->
  let E := expected_rows x0 x1 h in
  (Z.of_nat (List.length E) <= 65536)%Z -> 0 < heights E ->
  forall fuel x y s,
  (nth_error E 0 = Some s /\ y <= y0 \/
   nth_error E (List.length E - 1) = Some s /\ y0 + heights E <= y) ->
  s_padH s < s_h s -> getNearestPad (S fuel) l x y = Some UB.
Proof. exact rect_low_pads. Qed.
Print Assumptions C09_low_pads_undefined.

(** C10: neighbours are the next and previous pad of the row, undo each other, and throw exactly at
    the ends. *)
Theorem C10_neighbours : forall x0 x1 y0 h l, built x0 x1 y0 h l ->
  let E := expected_rows x0 x1 h in indexable E ->
  forall i s j p, nth_error E i = Some s -> (0 <= j < s_n s)%Z -> getPadIndex l (Z.of_nat i) j = Ok p ->
  ((j + 1 < s_n s)%Z -> exists q, getRightNeighbour l p = Ok q /\ getPadIndex l (Z.of_nat i) (j + 1) = Ok q /\
       getLeftNeighbour l q = Ok p) /\
  ((j + 1 = s_n s)%Z -> exists m, getRightNeighbour l p = Throw (EGear m)) /\
  ((0 < j)%Z -> exists q, getLeftNeighbour l p = Ok q /\ getPadIndex l (Z.of_nat i) (j - 1) = Ok q /\
       getRightNeighbour l q = Ok p) /\
  ((j = 0)%Z -> exists m, getLeftNeighbour l p = Throw (EGear m)).
Proof. exact rect_right. Qed.
Print Assumptions C10_neighbours.

(** C11 (rectangular layout): the centre of a pad is inside the pad, at distance 0. *)
Theorem C11_rect_centre_inside : forall x0 x1 y0 h l, built x0 x1 y0 h l ->
  let E := expected_rows x0 x1 h in indexable E ->
  forall i s j p, nth_error E i = Some s -> (0 <= j < s_n s)%Z -> getPadIndex l (Z.of_nat i) j = Ok p ->
  exists cx cy, getPadCenter l p = Ok (cx, cy) /\ isInsidePad l cx cy p = Ok true /\
    getDistanceToPad l cx cy p = Ok 0.
Proof. exact rect_centre_inside. Qed.
Print Assumptions C11_rect_centre_inside.

(** C52: isInsidePad and getDistanceToPad describe the metal rectangle around the centre: the
    first tests membership, the second is the Euclidean distance to it. *)
Theorem C52_rect_inside_and_distance : forall x0 x1 y0 h l, built x0 x1 y0 h l ->
  let E := expected_rows x0 x1 h in indexable E ->
  forall i s j p, nth_error E i = Some s -> (0 <= j < s_n s)%Z -> getPadIndex l (Z.of_nat i) j = Ok p ->
  forall x y, exists b d,
    isInsidePad l x y p = Ok b /\ getDistanceToPad l x y p = Ok d /\
    let cx := cell_left x0 x1 s j + pitch x0 x1 s / 2 in
    let cy := bottom y0 E i + s_h s / 2 in
    (b = true <-> cx - s_padW s / 2 <= x <= cx + s_padW s / 2 /\ cy - s_padH s / 2 <= y <= cy + s_padH s / 2) /\
    is_box_dist x y (cx - s_padW s / 2) (cy - s_padH s / 2) (cx + s_padW s / 2) (cy + s_padH s / 2) d.
Proof. exact rect_inside_exact. Qed.
Print Assumptions C52_rect_inside_and_distance.

(** C12 (rectangular layout): a clone answers every query but getPadsInRow like the original. *)
Theorem C12_rect_clone_same : forall l,
  getNRows (clone l) = getNRows l /\ getNPads (clone l) = getNPads l /\
  getRepeatRowCount (clone l) = getRepeatRowCount l /\ getPlaneExtent (clone l) = getPlaneExtent l /\
  (forall i, getRowHeight (clone l) i = getRowHeight l i) /\
  (forall i, getPadHeight (clone l) i = getPadHeight l i) /\
  (forall i, getPadWidth (clone l) i = getPadWidth l i) /\
  (forall i, getPadPitch (clone l) i = getPadPitch l i) /\
  (forall i, getPadCenter (clone l) i = getPadCenter l i) /\
  (forall i, getRowNumber (clone l) i = getRowNumber l i) /\
  (forall r p, getPadIndex (clone l) r p = getPadIndex l r p) /\
  (forall fuel x y, getNearestPad fuel (clone l) x y = getNearestPad fuel l x y) /\
  (forall i, getRightNeighbour (clone l) i = getRightNeighbour l i) /\
  (forall i, getLeftNeighbour (clone l) i = getLeftNeighbour l i) /\
  (forall x y i, isInsidePad (clone l) x y i = isInsidePad l x y i) /\
  (forall fuel x y, isInsideAnyPad fuel (clone l) x y = isInsideAnyPad fuel l x y) /\
  (forall x y i, getDistanceToPad (clone l) x y i = getDistanceToPad l x y i).
Proof. exact rect_clone_same. Qed.
Print Assumptions C12_rect_clone_same.

(** C12, defect: getPadsInRow of a clone is empty for every row. *)
Theorem C12_rect_clone_no_pads : forall x0 x1 y0 h l, built x0 x1 y0 h l ->
  forall r, getPadsInRow (clone l) r = SOk (clone l) [].
Proof. exact rect_clone_no_pads. Qed.
Print Assumptions C12_rect_clone_no_pads.

(** C51: getPadsInRow lists the indices of the row's pads in order, whatever was asked before, and is
    empty for rows that do not exist. *)
Theorem C51_rect_pads_in_row : forall x0 x1 y0 h l, built x0 x1 y0 h l ->
  let E := expected_rows x0 x1 h in indexable E ->
  forall r, exists l' v, getPadsInRow l r = SOk l' v /\
    (forall i s, r = Z.of_nat i -> nth_error E i = Some s ->
       List.length v = Z.to_nat (s_n s) /\
       forall j, (0 <= j < s_n s)%Z -> exists p, nth_error v (Z.to_nat j) = Some p /\ getPadIndex l r j = Ok p) /\
    ((r < 0 \/ Z.of_nat (List.length E) <= r)%Z -> v = []).
Proof. exact rect_pads_in_row. Qed.
Print Assumptions C51_rect_pads_in_row.

(** C13: the first repeatRows(n), n >= 1, gives n periods of the pattern, each shifted by the height of
    the pattern, and any later call has no effect. *)
Theorem C13_repeat : forall x0 x1 y0 h l n, built x0 x1 y0 h l -> no_repeat h -> (1 <= n < 2147483648)%Z ->
  exists l', repeatRows l n = SOk l' tt /\ getRepeatRowCount l' = n /\
    getNRows l' = (n * getNRows l)%Z /\
    getPlaneExtent l' = [x0; x1; y0; y0 + IZR n * heights (expected_rows x0 x1 h)] /\
    getNPads l' = (n * total_pads (expected_rows x0 x1 h) + refused_pads x0 x1 h)%Z /\
    (forall m i, (0 <= m < n)%Z -> (0 <= i < getNRows l)%Z ->
       getRowHeight l' (m * getNRows l + i) = getRowHeight l i) /\
    (indexable (expected_rows x0 x1 h) -> (n * getNRows l <= 65536)%Z ->
     forall m i j p, (0 <= m < n)%Z -> (0 <= i < getNRows l)%Z -> (0 <= j)%Z -> getPadIndex l i j = Ok p ->
       exists q cx cy, getPadIndex l' (m * getNRows l + i) j = Ok q /\
         getPadHeight l' q = getPadHeight l p /\ getPadWidth l' q = getPadWidth l p /\
         getPadPitch l' q = getPadPitch l p /\ getPadCenter l p = Ok (cx, cy) /\
         getPadCenter l' q = Ok (cx, cy + IZR m * heights (expected_rows x0 x1 h))) /\
    (forall k, repeatRows l' k = SOk l' tt).
Proof. exact rect_repeat. Qed.
Print Assumptions C13_repeat.

(** C13, defect: repeatRows(0) does 2^32 - 1 repetitions. *)
Theorem C13_repeat_zero : forall x0 x1 y0 h l, built x0 x1 y0 h l -> no_repeat h ->
  exists l', repeatRows l 0 = SOk l' tt /\ getNRows l' = (4294967296 * getNRows l)%Z.
Proof. exact rect_repeat_zero. Qed.
Print Assumptions C13_repeat_zero.

