(** C07, C11, C12, C15-C17, C51, C54, C56, C57: FixedPadAngleDiskLayout. *)
From Coq Require Import ZArith List String Bool Reals Lra Lia.
From Verif Require Import Base RBase DiskBase FpaModel DiskSpec FpaProofs.
From Verif Require RectSpec.
Import ListNotations.
Open Scope R_scope.

(** A quarter disk with 2 rows of 2 pads meets the hypotheses of the theorems below. *)
Example wedge_fpa : fpa_sane fpa_wedge /\ fpa_pad fpa_wedge 1 1 /\ exists l, fpa_made fpa_wedge [] l /\
  0 <= 2 < pa_rMin fpa_wedge + 2147483648 * fpa_getRowHeight l 0 /\ pa_phiMin fpa_wedge < 1 < pa_phiMax fpa_wedge /\
  fpa_getPadPitch l 0 < 2 * PI.
Proof.
  split; [apply fpa_wedge_sane|]. split; [split; cbn; lia|]. destruct (fpa_exists _ fpa_wedge_sane) as [l HM]. exists l. split; auto.
  pose proof (fpa_made_rep _ _ _ HM) as HR. unfold fpa_getRowHeight, fpa_getPadPitch. rewrite (pr_h _ _ HR), (pr_p _ _ HR). cbn.
  pose proof PI2_3_2. unfold PI2 in *. lra.
Qed.
Example wedge_fpa_edge : ~ same_angle 0 (pa_phiMax fpa_wedge).
Proof.
  intros [k E]. cbn in E. assert (F : (1 + 4 * k = 0)%Z); [|lia]. apply eq_IZR. rewrite plus_IZR, mult_IZR.
  apply Rmult_eq_reg_l with (PI / 2); [lra|]. pose proof PI_RGT_0. lra.
Qed.

(** Index coding. *)
Theorem C07_fpa_index_lossless : forall a h l, fpa_made a h l -> fpa_sane a -> forall i j, fpa_pad a i j ->
  fpa_getPadIndex l i j = Ok (code i j) /\
  disk_rowNumber (code i j) = i /\ disk_padNumber (code i j) = j /\
  forall i' j', fpa_pad a i' j' -> fpa_getPadIndex l i' j' = Ok (code i j) -> i' = i /\ j' = j.
Proof. exact fpa_index_lossless. Qed.
Print Assumptions C07_fpa_index_lossless.

(** getPadIndex refuses exactly the numbers that are too large; negative ones are accepted. *)
Theorem C07_fpa_index_refused : forall a h l, fpa_made a h l -> forall i j,
  ((exists p, fpa_getPadIndex l i j = Ok p) <-> (i < pa_nRow a /\ j < pa_nPads a)%Z) /\
  (~ (i < pa_nRow a /\ j < pa_nPads a)%Z -> exists e, fpa_getPadIndex l i j = Throw e).
Proof. exact fpa_index_refused. Qed.
Print Assumptions C07_fpa_index_refused.

(** Neighbours. *)
Theorem C16_fpa_neighbours : forall a h l, fpa_made a h l -> fpa_sane a -> forall i j, fpa_pad a i j ->
  let full := Rabs (pa_phiMax a - pa_phiMin a - 2 * PI) < 1 / 1000000 in
  let np := pa_nPads a in
  ((j < np - 1)%Z -> fpa_getLeftNeighbour l (code i j) = Ok (code i (j + 1))) /\
  (full -> fpa_getLeftNeighbour l (code i (np - 1)) = Ok (code i 0)) /\
  (~ full -> exists e, fpa_getLeftNeighbour l (code i (np - 1)) = Throw e) /\
  ((0 < j)%Z -> fpa_getRightNeighbour l (code i j) = Ok (code i (j - 1))) /\
  (full -> fpa_getRightNeighbour l (code i 0) = Ok (code i (np - 1))) /\
  (~ full -> exists e, fpa_getRightNeighbour l (code i 0) = Throw e).
Proof. exact fpa_neighbours. Qed.
Print Assumptions C16_fpa_neighbours.

(** Numbers, extent and sizes are those asked for. *)
Theorem C57_fpa_counts : forall a h l, fpa_made a h l ->
  fpa_getNRows l = pa_nRow a /\ fpa_getNPads l = (pa_nRow a * pa_nPads a)%Z /\
  fpa_getPlaneExtent l = [pa_rMin a; pa_rMax a; pa_phiMin a; pa_phiMax a] /\
  (pa_nRow a <> 0%Z -> forall i, IZR (pa_nRow a) * fpa_getRowHeight l i = pa_rMax a - pa_rMin a) /\
  (pa_nPads a <> 0%Z -> forall i, IZR (pa_nPads a) * fpa_getPadPitch l i = pa_phiMax a - pa_phiMin a).
Proof. exact fpa_counts. Qed.
Print Assumptions C57_fpa_counts.

(** The centre of a pad: where it is, inside, distance 0, and its nearest pad (C15). *)
Theorem C11_fpa_centre_inside : forall a h l, fpa_made a h l -> fpa_sane a -> forall i j, fpa_pad a i j ->
  let c := fpa_getPadCenter l (code i j) in
  c = ((fpa_r a i + fpa_r a (i + 1)) / 2, (fpa_phi a j + fpa_phi a (j + 1)) / 2) /\
  fpa_isInsidePad l (fst c) (snd c) (code i j) = true /\ fpa_getDistanceToPad l (fst c) (snd c) (code i j) = 0 /\
  fpa_getNearestPad l (fst c) (snd c) = Ok (code i j).
Proof. exact fpa_centre_inside. Qed.
Print Assumptions C11_fpa_centre_inside.

(** The nearest pad of a centre is that pad (last part). *)
Theorem C15_fpa_nearest_centre : forall a h l, fpa_made a h l -> fpa_sane a -> forall i j, fpa_pad a i j ->
  let c := fpa_getPadCenter l (code i j) in
  c = ((fpa_r a i + fpa_r a (i + 1)) / 2, (fpa_phi a j + fpa_phi a (j + 1)) / 2) /\
  fpa_isInsidePad l (fst c) (snd c) (code i j) = true /\ fpa_getDistanceToPad l (fst c) (snd c) (code i j) = 0 /\
  fpa_getNearestPad l (fst c) (snd c) = Ok (code i j).
Proof. exact fpa_centre_inside. Qed.
Print Assumptions C15_fpa_nearest_centre.

(** Inside the phi range the nearest pad is the cell of the point; points below (above) the rows get the first (last) row. *)
Theorem C17_fpa_nearest_cell : forall a h l, fpa_made a h l -> fpa_sane a ->
  forall r phi phi', 0 <= r < pa_rMin a + 2147483648 * fpa_getRowHeight l 0 ->
  phi = phi' /\ pa_phiMin a <= phi' < pa_phiMax a \/ same_angle phi phi' /\ pa_phiMin a < phi' < pa_phiMax a ->
  exists i j, fpa_getNearestPad l r phi = Ok (code i j) /\ fpa_pad a i j /\
    fpa_phi a j <= phi' < fpa_phi a (j + 1) /\
    (r < pa_rMin a -> i = 0%Z) /\ (pa_rMax a <= r -> i = (pa_nRow a - 1)%Z) /\
    (pa_rMin a <= r < pa_rMax a -> fpa_r a i <= r < fpa_r a (i + 1)).
Proof. exact fpa_nearest_cell. Qed.
Print Assumptions C17_fpa_nearest_cell.

(** Every layout: getNearestPad throws on the upper phi edge. *)
Theorem C17_fpa_upper_edge_throws_refuted : forall a h l, fpa_made a h l -> fpa_sane a ->
  forall r, 0 <= r < pa_rMin a + 2147483648 * fpa_getRowHeight l 0 ->
  exists e, fpa_getNearestPad l r (pa_phiMax a) = Throw e.
Proof. exact fpa_nearest_edge_throws. Qed.
Print Assumptions C17_fpa_upper_edge_throws_refuted.

(** Everywhere else some existing pad is returned. *)
Theorem C17_fpa_nearest_total : forall a h l, fpa_made a h l -> fpa_sane a ->
  forall r phi, 0 <= r < pa_rMin a + 2147483648 * fpa_getRowHeight l 0 -> ~ same_angle phi (pa_phiMax a) ->
  exists i j, fpa_getNearestPad l r phi = Ok (code i j) /\ fpa_pad a i j.
Proof. exact fpa_nearest_total. Qed.
Print Assumptions C17_fpa_nearest_total.

(** Outside the wedge the pad returned is not always a nearest one. *)
Theorem C17_fpa_nearest_outside_refuted : exists a l r phi p q,
  fpa_made a [] l /\ fpa_sane a /\ 0 <= r /\ - PI < phi <= PI /\ fpa_pad a 0 0 /\ fpa_pad a 1 0 /\
  p = code 1 0 /\ q = code 0 0 /\
  fpa_getNearestPad l r phi = Ok p /\ fpa_getDistanceToPad l r phi q < fpa_getDistanceToPad l r phi p.
Proof. exact fpa_nearest_outside_wrong. Qed.
Print Assumptions C17_fpa_nearest_outside_refuted.

(** getDistanceToPad is the Euclidean distance to the keystone. *)
Theorem C54_fpa_distance : forall a h l, fpa_made a h l -> fpa_sane a -> forall i j, fpa_pad a i j ->
  forall r phi, 0 <= r -> pa_phiMax a - 2 * PI <= phi <= pa_phiMin a + 2 * PI ->
  is_sector_dist r phi (fpa_r a i) (fpa_r a (i + 1)) (fpa_phi a j) (fpa_phi a (j + 1)) (fpa_getDistanceToPad l r phi (code i j)).
Proof. exact fpa_distance. Qed.
Print Assumptions C54_fpa_distance.

(** ... but not for an angle written with a full turn more: the distance of a pad to its own centre is then positive. *)
Theorem C54_fpa_turn_refuted : forall a h l, fpa_made a h l -> fpa_sane a -> forall i j, fpa_pad a i j -> 
  fpa_getPadPitch l (code i j) < 2 * PI ->
  let c := fpa_getPadCenter l (code i j) in 0 < fpa_getDistanceToPad l (fst c) (snd c + 2 * PI) (code i j).
Proof. exact fpa_distance_turn. Qed.
Print Assumptions C54_fpa_turn_refuted.

(** isInsidePad for a given pad. *)
Theorem C56_fpa_inside_exact : forall a h l, fpa_made a h l -> fpa_sane a -> forall i j, fpa_pad a i j -> forall r phi,
  fpa_isInsidePad l r phi (code i j) = true <->
  fpa_r a i <= r <= fpa_r a (i + 1) /\ fpa_phi a j <= phi <= fpa_phi a (j + 1).
Proof. exact fpa_inside_exact. Qed.
Print Assumptions C56_fpa_inside_exact.

(** isInsidePad without a pad is true exactly on the union of all pads. *)
Theorem C56_fpa_inside_any_exact : forall a h l, fpa_made a h l -> fpa_sane a -> forall r phi,
  (fpa_isInsideAnyPad l r phi = true <-> pa_rMin a <= r <= pa_rMax a /\ pa_phiMin a <= phi <= pa_phiMax a) /\
  (fpa_isInsideAnyPad l r phi = true <-> exists i j, fpa_pad a i j /\ fpa_isInsidePad l r phi (code i j) = true).
Proof. exact fpa_inside_any_exact. Qed.
Print Assumptions C56_fpa_inside_any_exact.

(** getPadsInRow. *)
Theorem C51_fpa_pads_in_row : forall a h l, fpa_made a h l -> fpa_sane a ->
  forall i, exists l' v, fpa_getPadsInRow l i = SOk l' v /\ fpa_made a (h ++ [i]) l' /\
    ((i < 0 \/ pa_nRow a <= i)%Z -> v = []) /\
    ((0 <= i < pa_nRow a)%Z -> v = map (code i) (upto (Z.to_nat (pa_nPads a)))).
Proof. exact fpa_pads_list. Qed.
Print Assumptions C51_fpa_pads_in_row.

(** Clones. *)
Theorem C12_fpa_clone_same : forall a h l, fpa_made a h l ->
  let c := fpa_clone l in
  fpa_getNRows c = fpa_getNRows l /\ fpa_getNPads c = fpa_getNPads l /\
  fpa_getNPadsInRow c = fpa_getNPadsInRow l /\
  fpa_getPlaneExtent c = fpa_getPlaneExtent l /\ fpa_getFixedPadAngle c = fpa_getFixedPadAngle l /\
  (forall i, fpa_getRowHeight c i = fpa_getRowHeight l i) /\
  (forall i, fpa_getPadHeight c i = fpa_getPadHeight l i) /\
  (forall i, fpa_getPadWidth c i = fpa_getPadWidth l i) /\
  (forall i, fpa_getPadPitch c i = fpa_getPadPitch l i) /\
  (forall i, fpa_getPadCenter c i = fpa_getPadCenter l i) /\
  (forall r p, fpa_getPadIndex c r p = fpa_getPadIndex l r p) /\
  (forall r phi, fpa_getNearestPad c r phi = fpa_getNearestPad l r phi) /\
  (forall i, fpa_getRightNeighbour c i = fpa_getRightNeighbour l i) /\
  (forall i, fpa_getLeftNeighbour c i = fpa_getLeftNeighbour l i) /\
  (forall r phi i, fpa_isInsidePad c r phi i = fpa_isInsidePad l r phi i) /\
  (forall r phi, fpa_isInsideAnyPad c r phi = fpa_isInsideAnyPad l r phi) /\
  (forall r phi i, fpa_getDistanceToPad c r phi i = fpa_getDistanceToPad l r phi i) /\
  ((0 <= pa_nPads a)%Z -> forall i, answer (fpa_getPadsInRow c i) = answer (fpa_getPadsInRow l i)).
Proof. exact fpa_clone_same. Qed.
Print Assumptions C12_fpa_clone_same.
