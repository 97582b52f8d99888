(** C84: the pads of a mounted TPC module. *)
From Coq Require Import ZArith List String Bool Reals Lra Lia.
From Verif Require Import Base RBase DiskBase FpaModel DiskSpec FpaProofs TpcModuleModel TpcModel TpcSpec TpcModuleProofs TpcModuleProofs3 TpcModuleProofs4 TpcPadProofs.
From Verif Require RectModel RectSpec PropTpcModule.
Import ListNotations.
Open Scope R_scope.

(** A disk sector from -pi/2 to pi/4 with two rows of three pads, in a cartesian TPC, moved, with a
    border: meets the hypotheses below; pad 0 lies below the angle zero.  The rectangular module of
    PropTpcModule (turned, on the negative endplate) meets those about cartesian layouts. *)
Definition low_sector : fpa_args := mkFpaArgs 1 3 2 (- PI / 2) (PI / 4) 3.
Example sector_module : exists l m, let h := [MZ 5; MBorder (1/10); MOffset 10 2] in
  fpa_made low_sector [] l /\ fpa_sane low_sector /\ module_made 4 (LFpa l) CARTESIAN 10 h m /\
  side_settled (LFpa l) CARTESIAN h /\ not_on_y_axis (LFpa l) CARTESIAN h /\
  fpa_pad low_sector 1 0 /\ fpa_phi low_sector (0 + 1) < 0 /\
  e2 (getLocalModuleExtent m) <= pa_phiMin low_sector /\ pa_phiMax low_sector < e2 (getLocalModuleExtent m) + 2 * PI /\
  pt_dist (unmount (asked CARTESIAN h) (point CARTESIAN (12, 2))) (0, 0) < pa_rMin low_sector + 2147483648 * fpa_getRowHeight l 0 /\
  ~ (exists r, 0 <= r /\ unmount (asked CARTESIAN h) (point CARTESIAN (12, 2)) = point POLAR (r, pa_phiMax low_sector)).
Proof.
  pose proof PI2_3_2 as P. unfold PI2 in P. pose proof PI_4 as P4.
  assert (HS : fpa_sane low_sector) by (unfold fpa_sane, low_sector; cbn; repeat split; lra || lia).
  destruct (fpa_exists _ HS) as [l HM]. exists l. pose proof (fpa_made_rep _ _ _ HM) as HR.
  assert (E : lay_extent (LFpa l) = mkE 1 3 (- PI / 2) (PI / 4)).
  { cbn. rewrite (pr_rMin _ _ HR), (pr_rMax _ _ HR), (pr_phiMin _ _ HR), (pr_phiMax _ _ HR). reflexivity. }
  set (h := [MZ 5; MBorder (1/10); MOffset 10 2]).
  destruct (history_exists 4 (LFpa l) CARTESIAN 10 h) as [m Hm]; [left; reflexivity|intros; discriminate| |].
  { intros _. rewrite E. cbn. split; [lra|]. intros b [X|[X|[X|[]]]]; try discriminate. injection X as <-. lra. }
  exists m. intros h'. change h' with h. split; [exact HM|]. split; [exact HS|]. split; [exact Hm|].
  assert (N : negative (last_z h) = false) by (cbn; rcase; try lra; reflexivity).
  assert (U : unmount (asked CARTESIAN h) (point CARTESIAN (12, 2)) = (2, 0)).
  { unfold unmount, asked. rewrite N. cbn [pl_angle pl_x pl_y pl_neg point Z.eqb CARTESIAN POLAR Pos.eqb last_angle last_offset h fold_left fst snd].
    rewrite cos_0, sin_0. f_equal; ring. }
  rewrite U.
  split. { right. intros (X & _). discriminate. }
  split. { intros X. discriminate. }
  split. { split; cbn; lia. }
  split. { unfold fpa_phi, low_sector. cbn. lra. }
  rewrite (border_polar _ _ _ _ _ _ Hm eq_refl); rewrite E; cbn; [|lra|lra|lra].
  split; [lra|]. split; [lra|]. split.
  - unfold pt_dist, RectSpec.dist2. cbn [fst snd]. replace ((2 - 0) * (2 - 0) + (0 - 0) * (0 - 0)) with (2 * 2) by ring.
    rewrite sqrt_square by lra. unfold fpa_getRowHeight. rewrite (pr_h _ _ HR). cbn. lra.
  - intros (r & R0 & X). injection X as X1 X2.
    assert (0 < sin (PI / 4)) by (apply sin_gt_0; lra).
    assert (r = 0) by (destruct (Req_dec r 0); auto; exfalso; assert (0 < r * sin (PI / 4)) by (apply Rmult_lt_0_compat; lra); lra).
    subst r. rewrite Rmult_0_l in X1. lra.
Qed.

(** The centre of a pad of a module is the centre of the pad in its layout, carried to where the
    module is; a pad the layout refuses, the module refuses in the same way. *)
Theorem C84_centre : forall id p type f h m, module_made id p type f h m -> side_settled p type h -> forall i,
  match lay_center p i with
  | Ok c => exists g, module_getPadCenter m i = Ok g /\ point type g = mount (asked type h) (point (lay_type p) c)
  | Throw e => module_getPadCenter m i = Throw e
  | UB => module_getPadCenter m i = UB
  end.
Proof. exact pad_centre. Qed.
Print Assumptions C84_centre.

(** Questions about a given pad, and the nearest pad, are put to the layout, at the place the point
    has on the unmounted layout. *)
Theorem C84_questions : forall id p type f h m, module_made id p type f h m -> side_settled p type h ->
  not_on_y_axis p type h -> forall c0 c1, (type = POLAR -> 0 <= c0) ->
  exists l, point (lay_type p) l = unmount (asked type h) (point type (c0, c1)) /\
  (lay_type p = POLAR -> 0 <= fst l) /\
  (forall i, module_isInsidePad m c0 c1 i = lay_inside p (fst l) (snd l) i) /\
  (forall i, module_getDistanceToPad m c0 c1 i = lay_distance p (fst l) (snd l) i) /\
  (forall n, module_getNearestPad n m c0 c1 = lay_nearest n p (fst l) (snd l)).
Proof. exact pad_queries. Qed.
Print Assumptions C84_questions.

(** isInsidePad without a pad asks whether the nearest pad of the layout contains the point, its angle
    taken from the turn that begins where the module begins. *)
Theorem C84_any_pad : forall id p type f h m, module_made id p type f h m -> side_settled p type h ->
  not_on_y_axis p type h -> forall c0 c1, (type = POLAR -> 0 <= c0) ->
  exists l, point (lay_type p) l = unmount (asked type h) (point type (c0, c1)) /\
  (lay_type p = POLAR -> 0 <= fst l /\ e2 (getLocalModuleExtent m) <= snd l < e2 (getLocalModuleExtent m) + 2 * PI) /\
  forall n, match lay_nearest n p (fst l) (snd l) with
            | Some (Ok i) => module_isInsideAnyPad n m c0 c1 = Some (lay_inside p (fst l) (snd l) i)
            | Some (Throw e) => module_isInsideAnyPad n m c0 c1 = Some (Throw e)
            | Some UB => module_isInsideAnyPad n m c0 c1 = Some UB
            | None => module_isInsideAnyPad n m c0 c1 = None
            end.
Proof. exact pad_any. Qed.
Print Assumptions C84_any_pad.

(** Rectangular layouts: the centre a module reports for a pad is on that pad. *)
Theorem C84_rect_centre_on_pad : forall id q type f h m, module_made id (LRect q) type f h m -> side_settled (LRect q) type h ->
  forall x0 x1 y0 hr, RectSpec.built x0 x1 y0 hr q ->
  let E := RectSpec.expected_rows x0 x1 hr in RectSpec.indexable E ->
  forall i s j p, nth_error E i = Some s -> (0 <= j < RectSpec.s_n s)%Z -> RectModel.getPadIndex q (Z.of_nat i) j = Ok p ->
  exists g cx cy, module_getPadCenter m p = Ok g /\ RectModel.getPadCenter q p = Ok (cx, cy) /\
    point type g = mount (asked type h) (cx, cy) /\
    module_isInsidePad m (fst g) (snd g) p = Ok true /\ module_getDistanceToPad m (fst g) (snd g) p = Ok 0 /\
    forall n, module_getNearestPad n m (fst g) (snd g) = RectModel.getNearestPad n q cx cy.
Proof. exact rect_pads. Qed.
Print Assumptions C84_rect_centre_on_pad.

(** Disks with a fixed pad angle: the nearest pad of the centre a module reports for a pad is that pad. *)
Theorem C84_fpa_nearest_of_centre : forall id q type f h m a hq, module_made id (LFpa q) type f h m ->
  side_settled (LFpa q) type h -> not_on_y_axis (LFpa q) type h -> fpa_made a hq q -> fpa_sane a ->
  forall i j, fpa_pad a i j ->
  exists g, module_getPadCenter m (code i j) = Ok g /\
    point type g = mount (asked type h) (point POLAR ((fpa_r a i + fpa_r a (i + 1)) / 2, (fpa_phi a j + fpa_phi a (j + 1)) / 2)) /\
    forall n, module_getNearestPad n m (fst g) (snd g) = Some (Ok (code i j)).
Proof. exact fpa_pad_found. Qed.
Print Assumptions C84_fpa_nearest_of_centre.

(** A point is on some pad of such a module exactly if it is in the mounted area of one of its pads,
    the edge at the largest angle excepted. *)
Theorem C84_fpa_any_pad : forall id q type f h m a hq, module_made id (LFpa q) type f h m ->
  side_settled (LFpa q) type h -> not_on_y_axis (LFpa q) type h -> fpa_made a hq q -> fpa_sane a ->
  e2 (getLocalModuleExtent m) <= pa_phiMin a -> pa_phiMax a <= e2 (getLocalModuleExtent m) + 2 * PI ->
  forall c0 c1, (type = POLAR -> 0 <= c0) ->
  let u := unmount (asked type h) (point type (c0, c1)) in
  pt_dist u (0, 0) < pa_rMin a + 2147483648 * fpa_getRowHeight q 0 ->
  (~ exists r, 0 <= r /\ u = point POLAR (r, pa_phiMax a)) ->
  exists b, (forall n, module_isInsideAnyPad n m c0 c1 = Some (Ok b)) /\
    (b = true <-> exists i j r phi, fpa_pad a i j /\ fpa_r a i <= r <= fpa_r a (i + 1) /\ fpa_phi a j <= phi <= fpa_phi a (j + 1) /\
       point type (c0, c1) = mount (asked type h) (point POLAR (r, phi))).
Proof. exact fpa_any_pad. Qed.
Print Assumptions C84_fpa_any_pad.

(** On that edge the question throws. *)
Theorem C84_fpa_edge_throws_refuted : forall id q type f h m a hq, module_made id (LFpa q) type f h m ->
  side_settled (LFpa q) type h -> not_on_y_axis (LFpa q) type h -> fpa_made a hq q -> fpa_sane a ->
  e2 (getLocalModuleExtent m) <= pa_phiMin a ->
  forall c0 c1 r, (type = POLAR -> 0 <= c0) -> pa_phiMax a < e2 (getLocalModuleExtent m) + 2 * PI ->
  0 < r < pa_rMin a + 2147483648 * fpa_getRowHeight q 0 ->
  point type (c0, c1) = mount (asked type h) (point POLAR (r, pa_phiMax a)) ->
  exists e, forall n, module_isInsideAnyPad n m c0 c1 = Some (Throw e).
Proof. exact fpa_any_edge. Qed.
Print Assumptions C84_fpa_edge_throws_refuted.

(** isInsidePad for a given pad does not turn the angle: a moved module, or one in a cartesian TPC,
    denies that the centre of a pad below the angle zero is on that pad. *)
Theorem C84_fpa_pad_below_zero_refuted : forall id q type f h m a hq, module_made id (LFpa q) type f h m ->
  side_settled (LFpa q) type h -> not_on_y_axis (LFpa q) type h -> fpa_made a hq q -> fpa_sane a ->
  type = CARTESIAN \/ pl_x (asked type h) <> 0 ->
  forall i j, fpa_pad a i j -> fpa_phi a (j + 1) < 0 ->
  exists g, module_getPadCenter m (code i j) = Ok g /\ module_isInsidePad m (fst g) (snd g) (code i j) = Ok false.
Proof. exact fpa_pad_below_zero. Qed.
Print Assumptions C84_fpa_pad_below_zero_refuted.
