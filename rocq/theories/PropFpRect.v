(** C80-C82: the rectangular layout with the arithmetic of doubles. *)
From Coq Require Import ZArith List String Bool Reals Lra Lia.
From Verif Require Import Base RBase NumModel NumSpec FpModel RectModel RectSpec FpRectModel FpRectSpec
  FpRectProofs4 FpRectProofs6 FpRectProofs7 FpRectCases.
Import ListNotations.
Open Scope R_scope.

(** The hypotheses of C80, C81 and C82 are met by a layout of three rows of four pads ... *)
Example plain_ok : exists l, built_d 0 4 0 [CAdd plain_args] l /\
  let E := expected_rows_d 0 4 [CAdd plain_args] in
  E <> [] /\ indexable E /\ full_height E /\ Forall (sound_row 0 4) E /\ equal_heights 2 E /\ within 4 0 4 /\
  within 6 0 (0 + heights E) /\ tol_y (List.length E) 6 < heights E /\ 64 * tol_y (List.length E) 6 <= 2 /\
  no_rounding 0 2 (List.length E) /\ nth_error E 2 = Some plain_row /\ 8 * tol_x 4 <= pitch 0 4 plain_row /\
  tol_x 4 <= s_padW plain_row.
Proof.
  destruct plain_built as (l & HB & HE). exists l. split; [exact HB|]. rewrite HE. cbv zeta.
  split; [discriminate|]. split; [split; [cbn; lia|repeat constructor; cbn; lia]|]. split; [repeat constructor|].
  split; [repeat (apply Forall_cons; [exact plain_sound|]); apply Forall_nil|]. split; [repeat constructor|].
  split; [split; apply Rabs_le; lra|]. split; [split; cbn; apply Rabs_le; lra|].
  split; [unfold tol_y, ulp1; cbn [List.length INR heights fold_right map plain_row s_h]; cbn; lra|].
  split; [unfold tol_y, ulp1; cbn [List.length INR]; lra|].
  split; [exists 0%Z, 1%Z, 0%Z; split; [lia|]; split; [cbn; lra|]; split; [cbn; lra|cbn; lia]|].
  split; [reflexivity|]. split; [unfold tol_x, pitch, ulp1; cbn [plain_row s_left s_right s_n]; lra|].
  unfold tol_x, ulp1. cbn [plain_row s_padW]. lra.
Qed.
(** ... and those of C80 and C81 by the layout of C81_hangs, whose rows need rounding. *)
Example hang_ok : exists l, built_d 0 4 1 [CAdd hang_args] l /\
  let E := expected_rows_d 0 4 [CAdd hang_args] in
  E <> [] /\ indexable E /\ full_height E /\ Forall (sound_row 0 4) E /\ equal_heights h12 E /\
  within 4 1 (1 + heights E) /\ 64 * tol_y (List.length E) 4 <= h12 /\
  (exists i, between_rows 1 E (clampR 1 (top_edge 1 E) y22) i).
Proof.
  destruct hang_built as (l & HB & HE). exists l. split; [exact HB|]. rewrite HE. cbv zeta. destruct hang_sizes as (S1 & S2).
  split; [discriminate|]. split; [split; [cbn; lia|repeat constructor; cbn; lia]|]. split; [repeat constructor|].
  split; [repeat (apply Forall_cons; [exact hang_sound|]); apply Forall_nil|]. split; [repeat constructor|].
  split; [exact S1|]. split; [exact S2|]. exists 0%nat. rewrite hang_clamp. exact hang_between.
Qed.

(** C80: with doubles, whenever getNearestPad comes back, the pad it returns is the pad (in exact arithmetic on
    the sizes asked for) of a point that differs from the query, moved into the plane, by the rounding errors only.
    It may instead throw std::out_of_range, for a point within the rounding errors of the right edge of the pads. *)
Theorem C80_nearest : forall x0 x1 y0 h l, built_d x0 x1 y0 h l ->
  let E := expected_rows_d x0 x1 h in
  indexable E -> full_height E -> Forall (sound_row x0 x1) E ->
  forall Mx My, within Mx x0 x1 -> within My y0 (y0 + heights E) -> tol_y (List.length E) My < heights E ->
  forall fuel x y, is_double x -> is_double y ->
  dgetNearestPad fuel l x y = None \/
  (exists i s j p x' y', dgetNearestPad fuel l x y = Some (Ok p) /\ getPadIndex l (Z.of_nat i) j = Ok p /\
     Rabs (x' - clampR x0 x1 x) <= tol_x Mx /\ Rabs (y' - clampR y0 (y0 + heights E) y) <= tol_y (List.length E) My /\
     pad_at x0 x1 y0 E x' y' i s j) \/
  (exists i s m y', dgetNearestPad fuel l x y = Some (Throw (EOutOfRange m)) /\ nth_error E i = Some s /\
     x1 - s_right s - tol_x Mx <= clampR x0 x1 x < to_double (x1 - s_right s) /\
     Rabs (y' - clampR y0 (y0 + heights E) y) <= tol_y (List.length E) My /\ bottom y0 E i <= y' <= bottom y0 E i + s_h s).
Proof. exact rect_nearest_double. Qed.
Print Assumptions C80_nearest.

(** C80, defect: the exception is thrown for a point of the plane.  Three pads on [0,1], x = 1 - 2^-53. *)
Theorem C80_right_edge_throws : exists l, built_d 0 1 0 [CAdd (mkAdd 1 3 (1/4) 1 0 0 0)] l /\
  is_double (1 - ulp1) /\ 0 < 1 - ulp1 < 1 /\
  forall fuel, (1 <= fuel)%nat -> exists msg, dgetNearestPad fuel l (1 - ulp1) (1/2) = Some (Throw (EOutOfRange msg)).
Proof.
  replace (1 - ulp1) with x_last by (unfold x_last, ulp1; lra). destruct rect_edge_throws as (l & A & B). exists l.
  split; [exact A|]. split; [apply x_last_double|]. split; [unfold x_last; lra|exact B].
Qed.
Print Assumptions C80_right_edge_throws.

(** C81: rows of one height.  The search comes to an end (within three turns) exactly if the point does not fall
    between two rows, that is, unless both computed distances from the centres exceed half the height. *)
Theorem C81_ends_or_hangs : forall x0 x1 y0 h l H M, built_d x0 x1 y0 h l -> let E := expected_rows_d x0 x1 h in
  E <> [] -> indexable E -> full_height E -> Forall (sound_row x0 x1) E -> equal_heights H E ->
  within M y0 (y0 + heights E) -> 64 * tol_y (List.length E) M <= H ->
  forall x y, is_double x -> is_double y -> let yc := clampR y0 (top_edge y0 E) y in
  ((exists i, between_rows y0 E yc i) -> forall fuel, dgetNearestPad fuel l x y = None) /\
  ((forall i, ~ between_rows y0 E yc i) -> forall fuel, (3 <= fuel)%nat -> dgetNearestPad fuel l x y <> None).
Proof. exact rect_equal_rows_ends. Qed.
Print Assumptions C81_ends_or_hangs.

(** C81: sizes that need no rounding, e.g. whole millimetres with even heights: it always ends. *)
Theorem C81_exact_sizes_end : forall x0 x1 y0 h l H M, built_d x0 x1 y0 h l -> let E := expected_rows_d x0 x1 h in
  E <> [] -> indexable E -> full_height E -> Forall (sound_row x0 x1) E -> equal_heights H E ->
  within M y0 (y0 + heights E) -> 64 * tol_y (List.length E) M <= H -> no_rounding y0 H (List.length E) ->
  forall x y, is_double x -> is_double y -> forall fuel, (3 <= fuel)%nat -> dgetNearestPad fuel l x y <> None.
Proof.
  intros x0 x1 y0 h l H M HB E NE IX HF HS HU HM HT NR x y DX DY.
  apply (rect_equal_rows_ends x0 x1 y0 h l H M HB NE IX HF HS HU HM HT x y DX DY). intros i. now apply exact_between with H.
Qed.
Print Assumptions C81_exact_sizes_end.

(** C81, defect: two rows 1.2 high from y = 1 upwards (0x1.3333333333333p+0, the double written 1.2); at y = 2.2,
    where they meet, getNearestPad never returns, whatever x. *)
Theorem C81_hangs : exists l, built_d 0 4 1 [CAdd (mkAdd 2 4 (1/2) (to_double (12 / 10)) 0 0 0)] l /\
  forall fuel x, is_double x -> dgetNearestPad fuel l x (to_double (22 / 10)) = None.
Proof.
  replace (to_double (12 / 10)) with h12 by (symmetry; unfold h12; apply (FpMapCases.rnd_is 5404319552844595 4503599627370496 52); [lia|lia|reflexivity|FpMapCases.near]).
  replace (to_double (22 / 10)) with y22 by (symmetry; unfold y22; apply (FpMapCases.rnd_is 4953959590107546 2251799813685248 51); [lia|lia|reflexivity|FpMapCases.near]).
  exact rect_hang.
Qed.
Print Assumptions C81_hangs.

(** C82: the centre getPadCenter computes for a pad lies, up to the rounding errors, in the middle of its cell, and
    isInsidePad confirms it for pads wider than the rounding errors. *)
Theorem C82_centre : forall x0 x1 y0 h l, built_d x0 x1 y0 h l -> let E := expected_rows_d x0 x1 h in
  indexable E -> Forall (sound_row x0 x1) E -> forall Mx My, within Mx x0 x1 -> within My y0 (y0 + heights E) ->
  forall i s j, nth_error E i = Some s -> (0 <= j < s_n s)%Z ->
  exists p cx cy, getPadIndex l (Z.of_nat i) j = Ok p /\ dgetPadCenter l p = Ok (cx, cy) /\
    Rabs (cx - (cell_left x0 x1 s j + pitch x0 x1 s / 2)) <= tol_x Mx /\
    Rabs (cy - (bottom y0 E i + s_h s / 2)) <= tol_y (List.length E) My /\
    (tol_x Mx <= s_padW s -> disInsidePad l cx cy p = Ok true).
Proof. exact rect_centre_double. Qed.
Print Assumptions C82_centre.

(** C82: with rows of one height, getNearestPad of that centre is the pad itself. *)
Theorem C82_round_trip : forall x0 x1 y0 h l H, built_d x0 x1 y0 h l -> let E := expected_rows_d x0 x1 h in
  indexable E -> full_height E -> Forall (sound_row x0 x1) E -> equal_heights H E ->
  forall Mx My, within Mx x0 x1 -> within My y0 (y0 + heights E) -> 64 * tol_y (List.length E) My <= H ->
  forall i s j, nth_error E i = Some s -> (0 <= j < s_n s)%Z -> 8 * tol_x Mx <= pitch x0 x1 s ->
  forall p cx cy, getPadIndex l (Z.of_nat i) j = Ok p -> dgetPadCenter l p = Ok (cx, cy) ->
  forall fuel, (3 <= fuel)%nat -> dgetNearestPad fuel l cx cy = Some (Ok p).
Proof. exact rect_round_trip_double. Qed.
Print Assumptions C82_round_trip.
