(** C07, C11, C12, C14-C16, C51, C53, C54, C56: FixedPadSizeDiskLayout. *)
From Coq Require Import ZArith List String Bool Reals Lra Lia.
From Verif Require Import Base RBase DiskBase FpsModel DiskSpec FpsProofs FpsProofs2 FpsProofs3 FpsProofs4 FpsProofs5.
From Verif Require RectSpec.
Import ListNotations.
Open Scope R_scope.

(** A wedge of one radian and a full circle; both meet the hypotheses of the theorems below. *)
Example wedge_fps : fps_sane fps_over /\ exists l, fps_made fps_over [] l /\ fps_all_rows l /\ (0 < fps_getNRows l)%Z /\ fps_valid l 0 0.
Proof.
  split; [apply fps_over_sane|]. destruct fps_over_exists as [l [HM HA]]. exists l. assert (HA' := HA). destruct HA' as [Hn _].
  split; [auto|]. split; [auto|]. split; [lia|]. apply fps_all_valid; [auto|lia].
Qed.
Example round_fps : fps_sane fps_round /\ exists l, fps_made fps_round [] l /\ fps_all_rows l /\ (0 < fps_getNRows l)%Z /\ fps_valid l 0 0.
Proof.
  split; [apply fps_round_sane|]. destruct fps_round_exists as [l [HM HA]]. exists l. assert (HA' := HA). destruct HA' as [Hn _].
  split; [auto|]. split; [auto|]. split; [lia|]. apply fps_all_valid; [auto|lia].
Qed.
(** The nearest-pad theorems: a radius in range. *)
Example round_fps_radius : exists l, fps_made fps_round [] l /\ 1 / 1000000 <= 11 /\ 11 < fa_rMin fps_round + 2147483648 * fps_getRowHeight l 0.
Proof.
  destruct fps_round_exists as [l [HM [Hn HA]]]. exists l. split; auto. split; [lra|].
  pose proof (fps_made_rep _ _ _ HM) as HR. unfold fps_getNRows in Hn. rewrite (fr_len _ _ HR) in Hn.
  pose proof (frep_h_pos _ _ HR ltac:(cbn; lra) ltac:(lia)). pose proof (frep_h_total _ _ HR ltac:(lia)) as T. cbn in T.
  assert (IZR (f_nRow l) <= 65536) by (apply (IZR_le _ 65536); lia). unfold fps_getRowHeight. cbn. nra.
Qed.
(** ... and for the wedge there is room for [C53_fps_nearest_direction]. *)
Example wedge_fps_gap : 1 / 1000000 <= 2 * PI - fa_phiMax fps_over.
Proof. cbn. pose proof PI2_3_2. unfold PI2 in *. lra. Qed.

(** Pads and rows fill the phi and radial range, and fit as C14 demands. *)
Theorem C14_fps_fit : forall a h l, fps_made a h l ->
  let n := fps_getNRows l in
  exists Phi nps,
    same_angle Phi (fa_phiMax a) /\ -2 * PI <= Phi <= 2 * PI /\
    (-2 * PI <= fa_phiMax a <= 2 * PI -> Phi = fa_phiMax a) /\
    fps_getPlaneExtent l = [fa_rMin a; fa_rMax a; 0; Phi] /\
    ((0 < n)%Z -> IZR n * fa_padHeight a <= fa_rMax a + 1 / 100 - fa_rMin a /\
                  forall row, IZR n * fps_getRowHeight l row = fa_rMax a - fa_rMin a) /\
    ((0 < fa_nRow a)%Z -> (n <= fa_nRow a)%Z) /\
    ((fa_nRow a <= 0 \/ n < fa_nRow a)%Z -> fa_rMax a + 1 / 100 - fa_rMin a < IZR (n + 1) * fa_padHeight a) /\
    Z.of_nat (List.length nps) = n /\ fps_getNPads l = fold_right Z.add 0%Z nps /\
    (forall i np, nth_error nps i = Some np ->
       let rc := fa_rMin a + (IZR (Z.of_nat i) + 1 / 2) * fps_getRowHeight l (Z.of_nat i) in
       ((0 <= np)%Z -> fps_row_size l (Z.of_nat i) np) /\
       (0 < fa_padWidth a + fa_padGap a ->
          IZR np * (fa_padWidth a + fa_padGap a) <= rc * Phi < IZR (np + 1) * (fa_padWidth a + fa_padGap a)) /\
       ((0 < np)%Z -> (Z.of_nat i < 65536)%Z -> exists p, fps_getPadPitch l (code (Z.of_nat i) 0) = Ok p /\
          IZR np * p = Phi /\
          (0 < fa_padWidth a + fa_padGap a -> fa_padWidth a + fa_padGap a <= rc * p))).
Proof. exact fps_fit. Qed.
Print Assumptions C14_fps_fit.

(** Sufficient conditions for a layout all of whose rows have pads. *)
Theorem C14_fps_exists : forall a, fps_sane a -> 0 < fa_padHeight a -> 0 < fa_padWidth a -> (fa_nRow a <= 0)%Z ->
  fa_padHeight a <= fa_rMax a + 1 / 100 - fa_rMin a < 65537 * fa_padHeight a ->
  fa_padWidth a + fa_padGap a <= fa_rMin a * fa_phiMax a ->
  fa_rMax a * fa_phiMax a < 65537 * (fa_padWidth a + fa_padGap a) ->
  exists l, fps_made a [] l /\ fps_all_rows l.
Proof. exact fps_exists. Qed.
Print Assumptions C14_fps_exists.

(** The number of rows is rounded with a tolerance of 0.01, so rows may be lower than the pads: there is a layout with a point inside pads of two rows. *)
Theorem C14_fps_pads_overlap_refuted : exists a l r phi, fps_made a [] l /\ fps_sane a /\ fps_all_rows l /\ 0 <= fa_padGap a /\
  fps_valid l 0 0 /\ fps_valid l 1 0 /\
  fps_isInsidePad l r phi (code 0 0) = Ok true /\ fps_isInsidePad l r phi (code 1 0) = Ok true.
Proof. exact fps_pads_overlap. Qed.
Print Assumptions C14_fps_pads_overlap_refuted.

(** Index coding. *)
Theorem C07_fps_index_lossless : forall a h l, fps_made a h l -> forall i j, fps_valid l i j ->
  fps_getPadIndex l i j = Ok (code i j) /\
  disk_rowNumber (code i j) = i /\ disk_padNumber (code i j) = j /\
  forall i' j', fps_valid l i' j' -> fps_getPadIndex l i' j' = Ok (code i j) -> i' = i /\ j' = j.
Proof. exact fps_index_lossless. Qed.
Print Assumptions C07_fps_index_lossless.

(** A negative pad number is accepted and aliases a large one. *)
Theorem C07_fps_negative_pad_accepted : forall a h l, fps_made a h l -> forall i j j', fps_valid l i j' -> (-65536 <= j < 0)%Z ->
  exists p, fps_getPadIndex l i j = Ok p /\ disk_rowNumber p = i /\ disk_padNumber p = (j + 65536)%Z.
Proof. exact fps_index_negative. Qed.
Print Assumptions C07_fps_negative_pad_accepted.

(** Numbers beyond the last row or pad are refused. *)
Theorem C07_fps_index_refused : forall a h l, fps_made a h l -> forall i j, (0 <= i < 2147483648)%Z -> (0 < fps_getNRows l)%Z ->
  (fps_getNRows l <= i \/ exists np, fps_row_size l i np /\ (0 < np <= j))%Z ->
  exists e, fps_getPadIndex l i j = Throw e.
Proof. exact fps_index_refused. Qed.
Print Assumptions C07_fps_index_refused.

(** A layout without rows: the check underflows and the subscript is out of bounds. *)
Theorem C07_fps_no_rows_undefined : forall a h l, fps_made a h l -> fps_getNRows l = 0%Z ->
  forall i j, (0 <= i < 2147483648)%Z -> fps_getPadIndex l i j = UB.
Proof. exact fps_index_no_rows. Qed.
Print Assumptions C07_fps_no_rows_undefined.

(** Neighbours. *)
Theorem C16_fps_neighbours : forall a h l, fps_made a h l -> fps_sane a -> forall i j np,
  fps_row_size l i np -> (0 <= j < np)%Z -> (np <= 65536)%Z -> (i < 65536)%Z ->
  let full := Rabs (fa_phiMax a - 2 * PI) < 1 / 1000000 in
  ((j < np - 1)%Z -> fps_getLeftNeighbour l (code i j) = Ok (code i (j + 1))) /\
  (full -> fps_getLeftNeighbour l (code i (np - 1)) = Ok (code i 0)) /\
  (~ full -> exists e, fps_getLeftNeighbour l (code i (np - 1)) = Throw e) /\
  ((0 < j)%Z -> fps_getRightNeighbour l (code i j) = Ok (code i (j - 1))) /\
  (full -> fps_getRightNeighbour l (code i 0) = Ok (code i (np - 1))) /\
  (~ full -> exists e, fps_getRightNeighbour l (code i 0) = Throw e).
Proof. exact fps_neighbours. Qed.
Print Assumptions C16_fps_neighbours.

(** Where the pads are. *)
Theorem C11_fps_pad_geometry : forall a h l, fps_made a h l -> fps_sane a -> forall i j, fps_valid l i j ->
  exists np, fps_row_size l i np /\ (0 <= j < np)%Z /\
  let h := fps_getRowHeight l i in
  let rc := fa_rMin a + (IZR i + 1 / 2) * h in
  let p := fa_phiMax a / IZR np in
  fps_getPadCenter l (code i j) = Ok (rc, (IZR j + 1 / 2) * p) /\
  fps_getPadPitch l (code i j) = Ok p /\ fps_getPadWidth l (code i j) = Ok (fa_padWidth a / rc) /\
  fps_getPadHeight l (code i j) = fa_padHeight a /\
  0 < h /\ 0 < p /\ fa_rMin a <= rc - h / 2 /\ rc + h / 2 <= fa_rMax a /\
  0 <= IZR j * p /\ (IZR j + 1) * p <= fa_phiMax a /\ 0 < fa_padWidth a / rc /\ 0 < fa_padHeight a /\
  (0 <= fa_padGap a -> fa_padWidth a / rc <= p).
Proof. exact fps_pad_geometry. Qed.
Print Assumptions C11_fps_pad_geometry.

(** Centres lie inside their pads. *)
Theorem C11_fps_centre_inside : forall a h l, fps_made a h l -> fps_sane a -> forall i j, fps_valid l i j ->
  exists c, fps_getPadCenter l (code i j) = Ok c /\ fps_isInsidePad l (fst c) (snd c) (code i j) = Ok true /\
    fps_getDistanceToPad l (fst c) (snd c) (code i j) = Ok 0.
Proof. exact fps_centre_inside. Qed.
Print Assumptions C11_fps_centre_inside.

(** The nearest pad of a centre is that pad. *)
Theorem C15_fps_nearest_centre : forall a h l, fps_made a h l -> fps_sane a -> forall i j, fps_valid l i j ->
  exists c, fps_getPadCenter l (code i j) = Ok c /\
    (1 / 1000000 <= fst c -> fps_getNearestPad l (fst c) (snd c) = Ok (code i j)).
Proof. exact fps_nearest_centre. Qed.
Print Assumptions C15_fps_nearest_centre.

(** Inside the phi range the nearest pad is the cell of the point. *)
Theorem C53_fps_nearest_cell : forall a h l, fps_made a h l -> fps_sane a -> fps_all_rows l ->
  forall r phi, 1 / 1000000 <= r -> r < fa_rMin a + 2147483648 * fps_getRowHeight l 0 ->
  (0 <= phi <= fa_phiMax a \/ fa_phiMax a = 2 * PI) ->
  exists i j np phi', fps_getNearestPad l r phi = Ok (code i j) /\
    fps_row_size l i np /\ (0 <= j < np)%Z /\
    same_angle phi' phi /\ 0 <= phi' <= fa_phiMax a /\ (0 <= phi <= fa_phiMax a -> phi' = phi) /\
    IZR j * (fa_phiMax a / IZR np) <= phi' <= (IZR j + 1) * (fa_phiMax a / IZR np) /\
    (r < fa_rMin a -> i = 0%Z) /\ (fa_rMax a < r -> i = (fps_getNRows l - 1)%Z) /\
    (fa_rMin a <= r <= fa_rMax a ->
       fa_rMin a + IZR i * fps_getRowHeight l i <= r <= fa_rMin a + (IZR i + 1) * fps_getRowHeight l i).
Proof. exact fps_nearest_cell. Qed.
Print Assumptions C53_fps_nearest_cell.

(** Some existing pad is returned for every point. *)
Theorem C53_fps_nearest_total : forall a h l, fps_made a h l -> fps_sane a -> fps_all_rows l ->
  forall r phi, 1 / 1000000 <= r -> r < fa_rMin a + 2147483648 * fps_getRowHeight l 0 ->
  exists i j, fps_getNearestPad l r phi = Ok (code i j) /\ fps_valid l i j.
Proof. exact fps_nearest_total. Qed.
Print Assumptions C53_fps_nearest_total.

(** Within half a turn of the middle of the wedge no pad is nearer. *)
Theorem C53_fps_nearest_minimal : forall a h l, fps_made a h l -> fps_sane a -> fps_all_rows l ->
  1 / 1000000 <= 2 * PI - fa_phiMax a \/ fa_phiMax a = 2 * PI ->
  forall r phi, 1 / 1000000 <= r -> r < fa_rMin a + 2147483648 * fps_getRowHeight l 0 ->
  fa_phiMax a / 2 - PI <= phi <= fa_phiMax a / 2 + PI ->
  exists i d, fps_getNearestPad l r phi = Ok i /\ fps_getDistanceToPad l r phi i = Ok d /\
    forall i' j', fps_valid l i' j' -> exists d', fps_getDistanceToPad l r phi (code i' j') = Ok d' /\ d <= d'.
Proof. exact fps_nearest_minimal_turn. Qed.
Print Assumptions C53_fps_nearest_minimal.

(** Just before phi=0 the answer depends on how the angle is written: at -d the first pad is found, at 2 pi - d the last one. *)
Theorem C53_fps_nearest_direction_refuted : forall a h l, fps_made a h l -> fps_sane a -> fps_all_rows l ->
  1 / 1000000 <= 2 * PI - fa_phiMax a ->
  forall r d, 1 / 1000000 <= r -> 0 < d < 2 * PI - fa_phiMax a ->
  exists i i' np', fps_getNearestPad l r (- d) = Ok (code i 0) /\ fps_valid l i 0 /\
    fps_getNearestPad l r (2 * PI - d) = Ok (code i' (np' - 1)) /\
    fps_row_size l i' np' /\ fps_valid l i' (np' - 1).
Proof. exact fps_nearest_direction. Qed.
Print Assumptions C53_fps_nearest_direction_refuted.

(** getDistanceToPad is the Euclidean distance to the keystone. *)
Theorem C54_fps_distance : forall a h l, fps_made a h l -> fps_sane a -> forall i j, fps_valid l i j ->
  forall r phi, 0 <= r -> - (2 * PI - fa_phiMax a) <= phi <= 2 * PI ->
  exists np d, fps_row_size l i np /\ fps_getDistanceToPad l r phi (code i j) = Ok d /\
    is_sector_dist r phi (fa_rMin a + IZR i * fps_getRowHeight l i) (fa_rMin a + (IZR i + 1) * fps_getRowHeight l i)
      (IZR j * (fa_phiMax a / IZR np)) ((IZR j + 1) * (fa_phiMax a / IZR np)) d.
Proof. exact fps_distance. Qed.
Print Assumptions C54_fps_distance.

(** isInsidePad for a given pad. *)
Theorem C56_fps_inside_exact : forall a h l, fps_made a h l -> fps_sane a -> forall i j, fps_valid l i j ->
  forall r phi, exists b phi' rc pc w, fps_isInsidePad l r phi (code i j) = Ok b /\
    fps_getPadCenter l (code i j) = Ok (rc, pc) /\ fps_getPadWidth l (code i j) = Ok w /\
    same_angle phi' phi /\ 0 <= phi' <= 2 * PI /\ (0 <= phi <= 2 * PI -> phi' = phi) /\
    (b = true <-> fa_rMin a <= r <= fa_rMax a /\ Rabs (r - rc) <= fa_padHeight a / 2 /\ Rabs (phi' - pc) <= w / 2).
Proof. exact fps_inside_exact. Qed.
Print Assumptions C56_fps_inside_exact.

(** isInsidePad without a pad: never true outside all pads. *)
Theorem C56_fps_inside_any_sound : forall a h l, fps_made a h l -> fps_sane a -> fps_all_rows l ->
  forall r phi, 1 / 1000000 <= r -> exists b, fps_isInsideAnyPad l r phi = Ok b /\
    (b = true -> exists i j, fps_valid l i j /\ fps_isInsidePad l r phi (code i j) = Ok true).
Proof. exact fps_inside_any_sound. Qed.
Print Assumptions C56_fps_inside_any_sound.

(** ... and inside a cell it is the answer for the pad of the cell. *)
Theorem C56_fps_inside_any_complete : forall a h l, fps_made a h l -> fps_sane a -> fps_all_rows l ->
  forall i j np, fps_row_size l i np -> (0 <= j < np)%Z -> forall r phi, 1 / 1000000 <= r ->
  fa_rMin a + IZR i * fps_getRowHeight l i < r < fa_rMin a + (IZR i + 1) * fps_getRowHeight l i ->
  IZR j * (fa_phiMax a / IZR np) < phi < (IZR j + 1) * (fa_phiMax a / IZR np) ->
  fps_isInsideAnyPad l r phi = fps_isInsidePad l r phi (code i j).
Proof. exact fps_inside_any_complete. Qed.
Print Assumptions C56_fps_inside_any_complete.

(** getPadsInRow. *)
Theorem C51_fps_pads_in_row : forall a h l, fps_made a h l -> fps_sane a ->
  forall i, exists l' v, fps_getPadsInRow l i = SOk l' v /\ fps_made a (h ++ [i]) l' /\
    ((i < 0 \/ fps_getNRows l <= i)%Z -> v = []) /\
    ((0 <= i < fps_getNRows l)%Z ->
       (forall j, (0 <= j < Z.of_nat (List.length v))%Z ->
          exists p, nth_error v (Z.to_nat j) = Some p /\ fps_getPadIndex l i j = Ok p) /\
       (forall j, (Z.of_nat (List.length v) <= j)%Z -> exists e, fps_getPadIndex l i j = Throw e)).
Proof. exact fps_pads_list. Qed.
Print Assumptions C51_fps_pads_in_row.

(** Clones. *)
Theorem C12_fps_clone_same : forall a h l, fps_made a h l ->
  let c := fps_clone l in
  fps_getNRows c = fps_getNRows l /\ fps_getNPads c = fps_getNPads l /\
  fps_getPlaneExtent c = fps_getPlaneExtent l /\ fps_getPadGap c = fps_getPadGap l /\
  fps_getFixedPadWidth c = fps_getFixedPadWidth l /\
  (forall i, fps_getRowHeight c i = fps_getRowHeight l i) /\
  (forall i, fps_getPadHeight c i = fps_getPadHeight l i) /\
  (forall i, fps_getPadWidth c i = fps_getPadWidth l i) /\
  (forall i, fps_getPadPitch c i = fps_getPadPitch l i) /\
  (forall i, fps_getPadCenter c i = fps_getPadCenter l i) /\
  (forall r p, fps_getPadIndex c r p = fps_getPadIndex l r p) /\
  (forall r phi, fps_getNearestPad c r phi = fps_getNearestPad l r phi) /\
  (forall i, fps_getRightNeighbour c i = fps_getRightNeighbour l i) /\
  (forall i, fps_getLeftNeighbour c i = fps_getLeftNeighbour l i) /\
  (forall r phi i, fps_isInsidePad c r phi i = fps_isInsidePad l r phi i) /\
  (forall r phi, fps_isInsideAnyPad c r phi = fps_isInsideAnyPad l r phi) /\
  (forall r phi i, fps_getDistanceToPad c r phi i = fps_getDistanceToPad l r phi i) /\
  (fps_sane a -> forall i, answer (fps_getPadsInRow c i) = answer (fps_getPadsInRow l i)).
Proof. exact fps_clone_same. Qed.
Print Assumptions C12_fps_clone_same.
