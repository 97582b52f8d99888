(** C07, C11, C12, C16, C18, C51, C54-C56: VersatileDiskRowLayout. *)
From Coq Require Import ZArith List String Bool Reals Lra Lia.
From Verif Require Import Base RBase DiskBase VdModel DiskSpec DiskProofs VdProofs VdProofs2 VdProofs3 VdProofs4 VdProofs5.
From Verif Require RectSpec.
Import ListNotations.
Open Scope R_scope.

(** Two rows with one pad each, added one by one, meet the hypotheses of the theorems below. *)
Example two_rows : exists l rows top x, vd_made 1 [VAdd vd_g1; VAdd vd_g2] l /\ vd_story 1 [VAdd vd_g1; VAdd vd_g2] rows top /\
  (forall y, In y rows -> vd_in_turn y) /\ vd_pad rows 0 x 0.
Proof.
  destruct vd_gap_inside as [l [rows [top [HM [HS [HT _]]]]]]. exists l, rows, top.
  assert (G1 : vd_good 1 vd_g1) by (unfold vd_good, vd_g1; cbn; pose proof PI2_3_2; unfold PI2 in *; split; [lia|]; split; [lra|]; split; [lra|]; split; [lra|]; split; [lia|lra]).
  assert (G2 : vd_good (1 + IZR 1 * 2) vd_g2) by (unfold vd_good, vd_g2; cbn; pose proof PI2_3_2; unfold PI2 in *; split; [lia|]; split; [lra|]; split; [lra|]; split; [lra|]; split; [lia|lra]).
  pose proof (vs_add 1 [VAdd vd_g1] _ _ vd_g2 (vs_add 1 [] [] 1 vd_g1 (vs_new 1) G1) G2) as HS'. cbn [app] in HS'.
  destruct (story_fun _ _ _ _ _ _ HS HS') as [-> _]. eexists. split; [auto|]. split; [auto|]. split; [auto|].
  repeat split; cbn; lia.
Qed.
(** A row that starts at a positive angle, one at negative angles, and one with too many pads. *)
Example late_row : let a := mkVdArgs 1 2 2 1 0 0 1 in vd_good 1 a /\ 0 < vd_off (1, a) <= vd_pitch (1, a) /\ 0 <= 0 < vd_off (1, a).
Proof.
  cbn zeta. pose proof PI2_3_2. unfold PI2 in *. assert (E : vd_off (1, mkVdArgs 1 2 2 1 0 0 1) = 1 / 2).
  { unfold vd_off, vd_rc; cbn. replace (1 / (1 + 2 / 2)) with (1 / 2) by lra. destruct (Rltb_spec (1 / 2) (- 2 * PI)); [lra|]. destruct (Rleb_spec (2 * PI) (1 / 2)); lra. }
  rewrite E. split; [unfold vd_good; cbn; split; [lia|]; split; [lra|]; split; [lra|]; split; [lra|]; split; [lia|lra]|]. unfold vd_pitch, vd_rc; cbn. lra.
Qed.
Example early_row : let a := mkVdArgs 3 1 2 (-4) 0 0 1 in vd_good 1 a /\ vd_phi (1, a) (va_nPads a) <= 0.
Proof.
  cbn zeta. pose proof PI2_3_2. unfold PI2 in *. assert (E : vd_off (1, mkVdArgs 3 1 2 (-4) 0 0 1) = -2).
  { unfold vd_off, vd_rc; cbn. replace (-4 / (1 + 2 / 2)) with (-2) by lra. destruct (Rltb_spec (-2) (- 2 * PI)); [lra|]. destruct (Rleb_spec (2 * PI) (-2)); lra. }
  unfold vd_phi. rewrite E. split; [unfold vd_good; cbn; split; [lia|]; split; [lra|]; split; [lra|]; split; [lra|]; split; [lia|lra]|]. unfold vd_pitch, vd_rc; cbn. lra.
Qed.
Example crowded_row : vd_made 1 [] (new_vd 1) /\ vd_story 1 [] [] 1 /\ let a := mkVdArgs 100 1 2 0 0 0 1 in
  2 * PI * (1 + va_height a / 2) < va_pitch a * IZR (va_nPads a).
Proof. split; [reflexivity|]. split; [constructor|]. cbn. pose proof PI_4. lra. Qed.
Example accepted_twice : all_accepted 1 [VAdd vd_g1; VAdd vd_g2].
Proof.
  assert (G1 : vd_good 1 vd_g1) by (unfold vd_good, vd_g1; cbn; pose proof PI2_3_2; unfold PI2 in *; split; [lia|]; split; [lra|]; split; [lra|]; split; [lra|]; split; [lia|lra]).
  assert (G2 : vd_good (1 + IZR 1 * 2) vd_g2) by (unfold vd_good, vd_g2; cbn; pose proof PI2_3_2; unfold PI2 in *; split; [lia|]; split; [lra|]; split; [lra|]; split; [lra|]; split; [lia|lra]).
  apply (aa_add 1 [VAdd vd_g1] _ _ vd_g2 (aa_add 1 [] [] 1 vd_g1 (aa_new 1) (vs_new 1) G1) (vs_add 1 [] [] 1 vd_g1 (vs_new 1) G1) G2).
Qed.

(** Every history of calls on a layout with a non-negative inner radius leaves a layout, and has
    exactly one story. *)
Theorem C18_vd_every_history : forall rMin h, 0 <= rMin ->
  exists l rows top, vd_made rMin h l /\ vd_story rMin h rows top /\
  forall rows' top', vd_story rMin h rows' top' -> rows' = rows /\ top' = top.
Proof.
  intros rMin h H. destruct (vd_total rMin h H) as [l [rows [top [HM [HS _]]]]]. exists l, rows, top.
  split; [exact HM|]. split; [exact HS|]. intros rows' top' HS'. exact (story_fun _ _ _ _ _ _ HS' HS).
Qed.
Print Assumptions C18_vd_every_history.

(** Rows are stacked from the inner radius to the top; none needs more than a turn. *)
Theorem C18_vd_stack : forall rMin h l rows top, 0 <= rMin -> vd_made rMin h l -> vd_story rMin h rows top ->
  stacked rMin rows top /\ vd_getNRows l = Z.of_nat (List.length rows) /\
  (exists p0 p1, vd_getPlaneExtent l = [rMin; top; p0; p1]) /\
  forall k x, nthZ rows k = Some x ->
    vd_getRowHeight l k = Ok (va_height (snd x)) /\ 0 < va_height (snd x) /\ vd_pitch x * IZR (va_nPads (snd x)) <= 2 * PI.
Proof. exact vd_stack. Qed.
Print Assumptions C18_vd_stack.

(** Where the pads are and how large. *)
Theorem C18_vd_geometry : forall rMin h l rows top, 0 <= rMin -> vd_made rMin h l -> vd_story rMin h rows top ->
  forall k x j, vd_pad rows k x j ->
  vd_getPadCenter l (code k j) = Ok (vd_rc x, (vd_phi x j + vd_phi x (j + 1)) / 2) /\
  vd_getRowHeight l k = Ok (va_height (snd x)) /\
  vd_getPadPitch l (code k j) = Ok (vd_pitch x) /\
  vd_getPadWidth l (code k j) = Ok ((if Reqb (va_padWidth (snd x)) 0 then va_pitch (snd x) else va_padWidth (snd x)) / vd_rc x) /\
  vd_getPadHeight l (code k j) = Ok (if Reqb (va_padHeight (snd x)) 0 then va_height (snd x) else va_padHeight (snd x)) /\
  vd_pitch x * IZR (va_nPads (snd x)) <= 2 * PI.
Proof. exact vd_geometry. Qed.
Print Assumptions C18_vd_geometry.

(** addRow succeeds exactly when its demands are met, and otherwise changes neither rows nor extent. *)
Theorem C18_vd_addRow_iff : forall rMin h l rows top a, 0 <= rMin -> vd_made rMin h l -> vd_story rMin h rows top ->
  let call := vd_addRow l (va_nPads a) (va_pitch a) (va_height a) (va_offset a) (va_padWidth a) (va_padHeight a) (va_repeat a) in
  (vd_good top a -> exists l', call = SOk l' tt) /\
  (~ vd_good top a -> exists l' e, call = SThrow l' e /\
     vd_getNRows l' = vd_getNRows l /\ vd_getPlaneExtent l' = vd_getPlaneExtent l /\
     (forall i, vd_getPadCenter l' i = vd_getPadCenter l i)).
Proof. exact vd_addRow_iff. Qed.
Print Assumptions C18_vd_addRow_iff.

(** The number of pads, as long as every addRow call was accepted ... *)
Theorem C18_vd_count : forall rMin h, 0 <= rMin -> all_accepted rMin h -> forall l rows top, vd_made rMin h l -> vd_story rMin h rows top ->
  vd_getNPads l = pads_of rows.
Proof. exact vd_count. Qed.
Print Assumptions C18_vd_count.

(** ... but pads of a refused row are counted. *)
Theorem C18_vd_phantom_pads_refuted : forall rMin h l rows top a, 0 <= rMin -> vd_made rMin h l -> vd_story rMin h rows top ->
  (0 < va_nPads a)%Z -> 0 <= va_pitch a -> 0 <= va_padWidth a <= va_pitch a -> 0 < va_height a -> (0 < va_repeat a)%Z ->
  2 * PI * (top + va_height a / 2) < va_pitch a * IZR (va_nPads a) ->
  exists l' e, vd_addRow l (va_nPads a) (va_pitch a) (va_height a) (va_offset a) (va_padWidth a) (va_padHeight a) (va_repeat a) = SThrow l' e /\
    vd_getNRows l' = vd_getNRows l /\ vd_getNPads l' = (vd_getNPads l + va_repeat a * va_nPads a)%Z /\ (vd_getNPads l < vd_getNPads l')%Z.
Proof. exact vd_phantom_pads. Qed.
Print Assumptions C18_vd_phantom_pads_refuted.

(** Rows added one by one, each within one turn: the phi extent is exactly the hull of the rows. *)
Theorem C18_vd_extent_exact : forall rMin h, 0 <= rMin -> (forall a, In (VAdd a) h -> va_repeat a = 1%Z) ->
  forall l rows top, vd_made rMin h l -> vd_story rMin h rows top -> (forall x, In x rows -> vd_in_turn x) -> rows <> [] ->
  exists p0 p1, vd_getPlaneExtent l = [rMin; top; p0; p1] /\
    (forall x, In x rows -> p0 <= vd_off x /\ vd_phi x (va_nPads (snd x)) <= p1) /\
    (exists x, In x rows /\ p0 = vd_off x) /\ (exists x, In x rows /\ p1 = vd_phi x (va_nPads (snd x))).
Proof. exact vd_extent_exact. Qed.
Print Assumptions C18_vd_extent_exact.

(** Repeated rows: the phi extent is smaller than the first row. *)
Theorem C18_vd_extent_repeat_refuted : forall rMin a l, 0 <= rMin -> vd_good rMin a -> (2 <= va_repeat a)%Z -> 0 < va_pitch a -> va_offset a = 0 ->
  vd_made rMin [VAdd a] l -> exists p1, vd_getPlaneExtent l = [rMin; rMin + IZR (va_repeat a) * va_height a; 0; p1] /\
    p1 < vd_phi (rMin, a) (va_nPads a).
Proof. exact vd_extent_repeat. Qed.
Print Assumptions C18_vd_extent_repeat_refuted.

(** Index coding. *)
Theorem C07_vd_index_lossless : forall rMin h l rows top, 0 <= rMin -> vd_made rMin h l -> vd_story rMin h rows top ->
  forall k x j, vd_pad rows k x j ->
  vd_getPadIndex l k j = Ok (code k j) /\ vd_getRowNumber l (code k j) = Ok k /\ disk_padNumber (code k j) = j /\
  forall k' x' j', vd_pad rows k' x' j' -> vd_getPadIndex l k' j' = Ok (code k j) -> k' = k /\ j' = j.
Proof. exact vd_index_lossless. Qed.
Print Assumptions C07_vd_index_lossless.

(** Which numbers getPadIndex refuses: a layout without rows is undefined behaviour, negative pad numbers are accepted. *)
Theorem C07_vd_index_refused : forall rMin h l rows top, 0 <= rMin -> vd_made rMin h l -> vd_story rMin h rows top ->
  (rows = [] -> forall k j, (-2147483648 <= k)%Z -> vd_getPadIndex l k j = UB) /\
  (rows <> [] -> (Z.of_nat (List.length rows) <= 2147483648)%Z -> forall k j, int_ok k ->
    (nthZ rows k = None -> exists e, vd_getPadIndex l k j = Throw e) /\
    (forall x, nthZ rows k = Some x ->
       ((va_nPads (snd x) <= j)%Z -> exists e, vd_getPadIndex l k j = Throw e) /\
       ((j < va_nPads (snd x))%Z -> exists p, vd_getPadIndex l k j = Ok p))).
Proof. exact vd_index_refused. Qed.
Print Assumptions C07_vd_index_refused.

(** Neighbours; whether the ends are connected depends on the phi extent of the whole layout. *)
Theorem C16_vd_neighbours : forall rMin h l rows top, 0 <= rMin -> vd_made rMin h l -> vd_story rMin h rows top ->
  forall p0 p1, vd_getPlaneExtent l = [rMin; top; p0; p1] ->
  forall k x j, vd_pad rows k x j ->
  let full := Rabs (p1 - p0 - 2 * PI) < 1 / 1000000 in
  let np := va_nPads (snd x) in
  ((j < np - 1)%Z -> vd_getLeftNeighbour l (code k j) = Ok (code k (j + 1))) /\
  (full -> vd_getLeftNeighbour l (code k (np - 1)) = Ok (code k 0)) /\
  (~ full -> exists e, vd_getLeftNeighbour l (code k (np - 1)) = Throw e) /\
  ((0 < j)%Z -> vd_getRightNeighbour l (code k j) = Ok (code k (j - 1))) /\
  (full -> vd_getRightNeighbour l (code k 0) = Ok (code k (np - 1))) /\
  (~ full -> exists e, vd_getRightNeighbour l (code k 0) = Throw e).
Proof. exact vd_neighbours. Qed.
Print Assumptions C16_vd_neighbours.

(** Centres lie inside their pads. *)
Theorem C11_vd_centre_inside : forall rMin h l rows top, 0 <= rMin -> vd_made rMin h l -> vd_story rMin h rows top ->
  forall k x j, vd_pad rows k x j -> exists c, vd_getPadCenter l (code k j) = Ok c /\
  vd_isInsidePad l (fst c) (snd c) (code k j) = Ok true /\ vd_getDistanceToPad l (fst c) (snd c) (code k j) = Ok 0.
Proof. exact vd_centre_inside. Qed.
Print Assumptions C11_vd_centre_inside.

(** Rows within one turn, starting at a non-negative angle: the nearest pad of a point of a row is the cell of the point. *)
Theorem C55_vd_nearest_cell : forall rMin h l rows top, 0 <= rMin -> vd_made rMin h l -> vd_story rMin h rows top ->
  (forall x, In x rows -> vd_in_turn x) ->
  forall k x r phi phi', nthZ rows k = Some x -> (k < 65535)%Z ->
  fst x <= r <= fst x + va_height (snd x) -> (k = 0%Z \/ fst x < r) ->
  (phi = phi' \/ same_angle phi phi' /\ 0 < phi' < 2 * PI) -> vd_off x <= phi' < vd_phi x (va_nPads (snd x)) ->
  exists j, vd_getNearestPad l r phi = Ok (code k j) /\ vd_pad rows k x j /\ vd_phi x j <= phi' < vd_phi x (j + 1).
Proof. exact vd_nearest_cell. Qed.
Print Assumptions C55_vd_nearest_cell.

(** ... in particular the nearest pad of a centre is that pad. *)
Theorem C55_vd_nearest_centre : forall rMin h l rows top, 0 <= rMin -> vd_made rMin h l -> vd_story rMin h rows top ->
  (forall x, In x rows -> vd_in_turn x) -> forall k x j, vd_pad rows k x j -> (k < 65535)%Z ->
  exists c, vd_getPadCenter l (code k j) = Ok c /\ vd_getNearestPad l (fst c) (snd c) = Ok (code k j).
Proof. exact vd_nearest_centre. Qed.
Print Assumptions C55_vd_nearest_centre.

(** A point just before the start of the row: the index of pad 65535 is returned. *)
Theorem C55_vd_before_start_refuted : forall rMin a l, 0 <= rMin -> vd_good rMin a -> va_repeat a = 1%Z -> vd_made rMin [VAdd a] l ->
  0 < vd_off (rMin, a) <= vd_pitch (rMin, a) -> forall r phi, 0 <= phi < vd_off (rMin, a) -> phi <= 2 * PI ->
  vd_getNearestPad l r phi = Ok (code 0 65535).
Proof. exact vd_before_start. Qed.
Print Assumptions C55_vd_before_start_refuted.

(** A point behind the end of the only row: the first pad if it is nearer in angle, the last one otherwise. *)
Example first_row_end : let a := mkVdArgs 3 1 2 0 0 0 1 in vd_good 1 a /\ 0 <= vd_off (1, a) /\ vd_phi (1, a) (va_nPads a) <= 3 < 2 * PI.
Proof.
  cbn zeta. pose proof PI2_3_2. unfold PI2 in *. assert (E : vd_off (1, mkVdArgs 3 1 2 0 0 0 1) = 0).
  { unfold vd_off, vd_rc; cbn. replace (0 / (1 + 2 / 2)) with 0 by lra. destruct (Rltb_spec 0 (- 2 * PI)); [lra|]. destruct (Rleb_spec (2 * PI) 0); lra. }
  unfold vd_phi. rewrite E. split; [unfold vd_good; cbn; split; [lia|]; split; [lra|]; split; [lra|]; split; [lra|]; split; [lia|lra]|]. unfold vd_pitch, vd_rc; cbn. lra.
Qed.
Theorem C55_vd_after_end : forall rMin a l, 0 < rMin -> vd_good rMin a -> va_repeat a = 1%Z -> (va_nPads a <= 65536)%Z -> vd_made rMin [VAdd a] l ->
  0 < va_pitch a -> 0 <= vd_off (rMin, a) ->
  forall r phi, 0 < r -> vd_phi (rMin, a) (va_nPads a) <= phi < 2 * PI ->
  vd_getNearestPad l r phi =
    Ok (code 0 (if Rlt_dec (vd_off (rMin, a) + 2 * PI - phi) (phi - vd_phi (rMin, a) (va_nPads a)) then 0 else va_nPads a - 1)).
Proof. exact vd_after_end. Qed.
Print Assumptions C55_vd_after_end.

(** A row at negative angles: only its first and last pad are ever returned. *)
Theorem C55_vd_negative_row_refuted : forall rMin a l, 0 <= rMin -> vd_good rMin a -> va_repeat a = 1%Z -> (va_nPads a <= 65536)%Z -> vd_made rMin [VAdd a] l ->
  vd_phi (rMin, a) (va_nPads a) <= 0 -> forall r phi,
  vd_getNearestPad l r phi = Ok (code 0 0) \/ vd_getNearestPad l r phi = Ok (code 0 (va_nPads a - 1)).
Proof. exact vd_negative_row. Qed.
Print Assumptions C55_vd_negative_row_refuted.

(** getDistanceToPad is the Euclidean distance to the keystone. *)
Theorem C54_vd_distance : forall rMin h l rows top, 0 <= rMin -> vd_made rMin h l -> vd_story rMin h rows top ->
  forall k x j, vd_pad rows k x j -> forall r phi, 0 <= r ->
  vd_phi x (j + 1) - 2 * PI <= phi <= vd_phi x j + 2 * PI ->
  exists d, vd_getDistanceToPad l r phi (code k j) = Ok d /\
    is_sector_dist r phi (fst x) (fst x + va_height (snd x)) (vd_phi x j) (vd_phi x (j + 1)) d.
Proof. exact vd_distance. Qed.
Print Assumptions C54_vd_distance.

(** isInsidePad for a given pad, angles up to one turn below or two above. *)
Theorem C56_vd_inside_exact : forall rMin h l rows top, 0 <= rMin -> vd_made rMin h l -> vd_story rMin h rows top ->
  forall k x j, vd_pad rows k x j -> forall r phi, vd_phi x j - 2 * PI <= phi < vd_phi x j + 4 * PI ->
  exists b, vd_isInsidePad l r phi (code k j) = Ok b /\
   (b = true <-> fst x <= r <= fst x + va_height (snd x) /\ exists phi', same_angle phi phi' /\ vd_phi x j <= phi' <= vd_phi x (j + 1)).
Proof. exact vd_inside_exact. Qed.
Print Assumptions C56_vd_inside_exact.

(** Further below every angle counts as inside. *)
Theorem C56_vd_inside_below_refuted : forall rMin h l rows top, 0 <= rMin -> vd_made rMin h l -> vd_story rMin h rows top ->
  forall k x j, vd_pad rows k x j -> forall r phi, fst x <= r <= fst x + va_height (snd x) -> phi < vd_phi x j - 2 * PI ->
  vd_isInsidePad l r phi (code k j) = Ok true.
Proof. exact vd_inside_below. Qed.
Print Assumptions C56_vd_inside_below_refuted.

(** Further above no angle does. *)
Theorem C56_vd_inside_above_refuted : forall rMin h l rows top, 0 <= rMin -> vd_made rMin h l -> vd_story rMin h rows top ->
  forall k x j, vd_pad rows k x j -> vd_pitch x < 2 * PI -> forall r phi, vd_phi x j + 4 * PI <= phi ->
  vd_isInsidePad l r phi (code k j) = Ok false.
Proof. exact vd_inside_above. Qed.
Print Assumptions C56_vd_inside_above_refuted.

(** isInsidePad without a pad: rows added one by one, each within one turn, starting at a non-negative angle. *)
Theorem C56_vd_inside_any_complete : forall rMin h, 0 <= rMin -> (forall a, In (VAdd a) h -> va_repeat a = 1%Z) ->
  forall l rows top, vd_made rMin h l -> vd_story rMin h rows top -> (forall x, In x rows -> vd_in_turn x) ->
  forall k x j r phi, vd_pad rows k x j -> (k < 65535)%Z -> fst x < r <= fst x + va_height (snd x) ->
  vd_phi x j <= phi < vd_phi x (j + 1) -> vd_isInsideAnyPad l r phi = Ok true.
Proof. exact vd_inside_any_complete. Qed.
Print Assumptions C56_vd_inside_any_complete.

(** Repeated rows: the centre of a pad can be reported outside all pads. *)
Theorem C56_vd_centre_outside_refuted : exists l rows top x, vd_made 1 [VAdd vd_rep2] l /\ vd_story 1 [VAdd vd_rep2] rows top /\
  vd_pad rows 0 x 2 /\ (forall y, In y rows -> vd_in_turn y) /\
  exists c, vd_getPadCenter l (code 0 2) = Ok c /\ vd_isInsidePad l (fst c) (snd c) (code 0 2) = Ok true /\
    vd_isInsideAnyPad l (fst c) (snd c) = Ok false.
Proof. exact vd_centre_outside_any. Qed.
Print Assumptions C56_vd_centre_outside_refuted.

(** A point in no pad can be reported inside. *)
Theorem C56_vd_gap_inside_refuted : exists l rows top, vd_made 1 [VAdd vd_g1; VAdd vd_g2] l /\ vd_story 1 [VAdd vd_g1; VAdd vd_g2] rows top /\
  (forall y, In y rows -> vd_in_turn y) /\ exists r phi, 0 <= phi < 2 * PI /\
  vd_isInsideAnyPad l r phi = Ok true /\
  (forall k x j, vd_pad rows k x j -> vd_isInsidePad l r phi (code k j) = Ok false).
Proof. exact vd_gap_inside. Qed.
Print Assumptions C56_vd_gap_inside_refuted.

(** getPadsInRow. *)
Theorem C51_vd_pads_in_row : forall rMin h l rows top, 0 <= rMin -> vd_made rMin h l -> vd_story rMin h rows top ->
  forall k, exists l' v, vd_getPadsInRow l k = SOk l' v /\ vd_made rMin (h ++ [VPads k]) l' /\
    (nthZ rows k = None -> v = []) /\
    (forall x, nthZ rows k = Some x -> (k < 65536)%Z -> (va_nPads (snd x) <= 65536)%Z -> v = map (code k) (upto (Z.to_nat (va_nPads (snd x))))).
Proof. exact vd_pads_list. Qed.
Print Assumptions C51_vd_pads_in_row.

(** Clones. *)
Theorem C12_vd_clone_same : forall rMin h l, 0 <= rMin -> vd_made rMin h l ->
  let c := vd_clone l in
  vd_getNRows c = vd_getNRows l /\ vd_getNPads c = vd_getNPads l /\
  vd_getPlaneExtent c = vd_getPlaneExtent l /\
  (forall i, vd_getRowHeight c i = vd_getRowHeight l i) /\
  (forall i, vd_getRowNumber c i = vd_getRowNumber l i) /\
  (forall i, vd_getPadHeight c i = vd_getPadHeight l i) /\
  (forall i, vd_getPadWidth c i = vd_getPadWidth l i) /\
  (forall i, vd_getPadPitch c i = vd_getPadPitch l i) /\
  (forall i, vd_getPadCenter c i = vd_getPadCenter l i) /\
  (forall r p, vd_getPadIndex c r p = vd_getPadIndex l r p) /\
  (forall r phi, vd_getNearestPad c r phi = vd_getNearestPad l r phi) /\
  (forall i, vd_getRightNeighbour c i = vd_getRightNeighbour l i) /\
  (forall i, vd_getLeftNeighbour c i = vd_getLeftNeighbour l i) /\
  (forall r phi i, vd_isInsidePad c r phi i = vd_isInsidePad l r phi i) /\
  (forall r phi, vd_isInsideAnyPad c r phi = vd_isInsideAnyPad l r phi) /\
  (forall r phi i, vd_getDistanceToPad c r phi i = vd_getDistanceToPad l r phi i) /\
  (forall i, answer (vd_getPadsInRow c i) = answer (vd_getPadsInRow l i)).
Proof. exact vd_clone_same. Qed.
Print Assumptions C12_vd_clone_same.
