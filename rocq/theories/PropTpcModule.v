(** C29, C58-C61: a single TPC module. *)
From Coq Require Import ZArith List String Bool Reals Lra Lia.
From Verif Require Import Base RBase DiskBase FpaModel DiskSpec FpaProofs TpcModuleModel TpcModel TpcSpec TpcModuleProofs TpcModuleProofs2 TpcModuleProofs3 TpcModuleProofs4 TpcModuleProofs5 TpcModuleProofs6.
From Verif Require RectModel.
Import ListNotations.
Open Scope R_scope.

(** A rectangular module with two rows of five pads, on the negative endplate, turned by a quarter,
    moved and with a border, meets the hypotheses of the theorems about cartesian TPCs. *)
Definition quarter_turn : list mcall := [MZ (-5); MAngle (PI / 2); MBorder 1; MOffset 3 4].
Example rect_module : exists l m, RectModel.addRow (RectModel.new_rect 0 10 0) 2 5 1 1 2 0 0 = SOk l tt /\
  module_made 7 (LRect l) CARTESIAN 10 quarter_turn m /\ lay_extent (LRect l) = mkE 0 10 0 4 /\
  getLocalModuleExtent m = mkE (-1) 11 (-1) 5 /\
  side_settled (LRect l) CARTESIAN quarter_turn /\ not_on_y_axis (LRect l) CARTESIAN quarter_turn /\
  sane_extent CARTESIAN (getLocalModuleExtent m) /\ negative (last_z quarter_turn) = true.
Proof.
  assert (E : exists l, RectModel.addRow (RectModel.new_rect 0 10 0) 2 5 1 1 2 0 0 = SOk l tt /\ lay_extent (LRect l) = mkE 0 10 0 4).
  { unfold RectModel.addRow, RectModel.new_rect. cbn. destruct (Reqb_spec 2 0); [lra|].
    repeat (rcase; cbn; try lra). eexists. split; [reflexivity|]. cbn. f_equal; try lra. change (Pos.to_nat 2) with 2%nat. cbn. lra. }
  destruct E as (l & E1 & E2). exists l.
  destruct (history_exists 7 (LRect l) CARTESIAN 10 quarter_turn) as [m Hm]; [left; reflexivity|intros; discriminate|intros; discriminate|].
  exists m. assert (L : getLocalModuleExtent m = mkE (-1) 11 (-1) 5).
  { rewrite (border_cartesian _ _ _ _ _ _ Hm eq_refl), E2. cbn. f_equal; lra. }
  assert (N : negative (last_z quarter_turn) = true) by (cbn; rcase; try lra; reflexivity).
  split; [exact E1|]. split; [exact Hm|]. split; [exact E2|]. split; [exact L|].
  split. { right. unfold at_origin. intros (_ & A & _). cbn in A. pose proof PI_RGT_0. lra. }
  split. { intros X. discriminate. }
  split; [|exact N]. rewrite L. split; [cbn; lra|]. split; [cbn; lra|]. intros; discriminate.
Qed.
(** The quarter disk of PropFpa, as a module of a polar TPC: centred and turned, or moved. *)
Example polar_modules : exists l, fpa_made fpa_wedge [] l /\ lay_extent (LFpa l) = mkE 1 3 0 (PI / 2) /\
  (exists m m', module_made 1 (LFpa l) POLAR 10 [MZ 5; MBorder (1/10)] m /\ call_module m (MAngle 1) = SOk m' tt /\
     sane_extent POLAR (getLocalModuleExtent m') /\ 0 < e3 (getLocalModuleExtent m') - e2 (getLocalModuleExtent m') < 2 * PI /\
     side_settled (LFpa l) POLAR [MZ 5; MBorder (1/10); MAngle 1] /\ not_on_y_axis (LFpa l) POLAR [MZ 5; MBorder (1/10); MAngle 1]) /\
  (exists m m', module_made 2 (LFpa l) POLAR 10 [MZ 5; MAngle 1] m /\ call_module m (MOffset 10 0) = SOk m' tt /\
     pl_x (asked POLAR [MZ 5; MAngle 1; MOffset 10 0]) <> 0 /\ sane_extent POLAR (getLocalModuleExtent m') /\ two_turns (getLocalModuleExtent m')).
Proof.
  destruct (fpa_exists _ fpa_wedge_sane) as [l HM]. exists l. split; [exact HM|].
  pose proof (fpa_made_rep _ _ _ HM) as HR. pose proof PI2_3_2 as P. unfold PI2 in P. pose proof PI_4 as P4.
  assert (E : lay_extent (LFpa l) = mkE 1 3 0 (PI / 2)).
  { cbn. rewrite (pr_rMin _ _ HR), (pr_rMax _ _ HR), (pr_phiMin _ _ HR), (pr_phiMax _ _ HR). reflexivity. }
  split; [exact E|]. split.
  - destruct (history_exists 1 (LFpa l) POLAR 10 [MZ 5; MBorder (1/10)]) as [m Hm]; [right; reflexivity|reflexivity| |].
    { intros _. rewrite E. cbn. split; [lra|]. intros b [X|[X|[]]]; [discriminate|]. injection X as <-. lra. }
    destruct (calls_succeed _ _ _ _ _ _ (MAngle 1) Hm) as [m' Hc]; [reflexivity| |].
    { intros _. rewrite E. cbn. lra. }
    exists m, m'. split; [exact Hm|]. split; [exact Hc|].
    assert (Hm' : module_made 1 (LFpa l) POLAR 10 [MZ 5; MBorder (1/10); MAngle 1] m').
    { split; [right; reflexivity|]. destruct Hm as [_ Hm]. change [MZ 5; MBorder (1/10); MAngle 1] with ([MZ 5; MBorder (1/10)] ++ [MAngle 1]).
      rewrite call_all_app, Hm. cbn [state_of]. rewrite Hc. reflexivity. }
    rewrite (border_polar _ _ _ _ _ _ Hm' eq_refl); rewrite E; cbn; [|lra|lra|lra].
    split. { unfold sane_extent. cbn. pose proof (Rmax_r (1 - 1 / 10) 0). assert (Rmax (1 - 1 / 10) 0 <= 1) by (apply Rmax_lub; lra). lra. }
    split; [lra|]. split; [left; cbn; rcase; try lra; reflexivity|]. intros _ _ _. cbn. lra.
  - destruct (history_exists 2 (LFpa l) POLAR 10 [MZ 5; MAngle 1]) as [m Hm]; [right; reflexivity|reflexivity| |].
    { intros _. rewrite E. cbn. split; [lra|]. intros b [X|[X|[]]]; discriminate. }
    destruct (calls_succeed _ _ _ _ _ _ (MOffset 10 0) Hm) as [m' Hc]; [reflexivity| |].
    { intros _. rewrite E. cbn. lra. }
    exists m, m'. split; [exact Hm|]. split; [exact Hc|].
    assert (Hm' : module_made 2 (LFpa l) POLAR 10 [MZ 5; MAngle 1; MOffset 10 0] m').
    { split; [right; reflexivity|]. destruct Hm as [_ Hm]. change [MZ 5; MAngle 1; MOffset 10 0] with ([MZ 5; MAngle 1] ++ [MOffset 10 0]).
      rewrite call_all_app, Hm. cbn [state_of]. rewrite Hc. reflexivity. }
    split. { cbn. rewrite cos_0. lra. }
    rewrite (border_polar _ _ _ _ _ _ Hm' eq_refl); rewrite E; cbn; [|lra|lra|lra].
    unfold sane_extent, two_turns. cbn. pose proof (Rmax_r (1 - 0) 0). assert (Rmax (1 - 0) 0 <= 1) by (apply Rmax_lub; lra). lra.
Qed.
(** The same quarter disk seen from the origin: away from it, around it, and with a corner on a tangent. *)
Example polar_modules_seen : exists l, fpa_made fpa_wedge [] l /\
  forall a d0 d1, exists m m', let h := [MZ 5; MAngle a; MOffset d0 d1] in
  module_made 2 (LFpa l) POLAR 10 [MZ 5; MAngle a] m /\ call_module m (MOffset d0 d1) = SOk m' tt /\
  lay_extent (LFpa l) = mkE 1 3 0 (PI / 2) /\ sane_extent POLAR (lay_extent (LFpa l)) /\
  getLocalModuleExtent m' = mkE 1 3 0 (PI / 2) /\ negative (last_z h) = false /\
  (a = 0 -> (d0, d1) = (10, 0) -> pl_x (asked POLAR h) <> 0 /\ ~ area POLAR (getLocalModuleExtent m') (asked POLAR h) (0, 0) /\
     ~ grazes_corner (getLocalModuleExtent m') (asked POLAR h)) /\
  (a = 0 -> (d0, d1) = (2, 5 * (PI / 4)) -> pl_x (asked POLAR h) <> 0 /\ mount (asked POLAR h) (point POLAR (2, PI / 4)) = (0, 0)).
Proof.
  destruct (fpa_exists _ fpa_wedge_sane) as [l HM]. exists l. split; [exact HM|].
  pose proof (fpa_made_rep _ _ _ HM) as HR. pose proof PI2_3_2 as P. unfold PI2 in P. pose proof PI_4 as P4.
  assert (E : lay_extent (LFpa l) = mkE 1 3 0 (PI / 2)).
  { cbn. rewrite (pr_rMin _ _ HR), (pr_rMax _ _ HR), (pr_phiMin _ _ HR), (pr_phiMax _ _ HR). reflexivity. }
  intros a d0 d1. destruct (history_exists 2 (LFpa l) POLAR 10 [MZ 5; MAngle a]) as [m Hm]; [right; reflexivity|reflexivity| |].
  { intros _. rewrite E. cbn. split; [lra|]. intros b [X|[X|[]]]; discriminate. }
  destruct (calls_succeed _ _ _ _ _ _ (MOffset d0 d1) Hm) as [m' Hc]; [reflexivity| |].
  { intros _. rewrite E. cbn. lra. }
  exists m, m'. intros h. split; [exact Hm|]. split; [exact Hc|].
  assert (Hm' : module_made 2 (LFpa l) POLAR 10 h m').
  { split; [right; reflexivity|]. destruct Hm as [_ Hm]. change h with ([MZ 5; MAngle a] ++ [MOffset d0 d1]).
    rewrite call_all_app, Hm. cbn [state_of]. rewrite Hc. reflexivity. }
  assert (L : getLocalModuleExtent m' = mkE 1 3 0 (PI / 2)).
  { rewrite (border_polar _ _ _ _ _ _ Hm' eq_refl); rewrite E; cbn; [|lra|lra|lra]. rewrite Rmax_left by lra. f_equal; lra. }
  assert (N : negative (last_z h) = false) by (cbn; rcase; try lra; reflexivity).
  assert (AS : asked POLAR h = mkPl a (d0 * cos d1) (d0 * sin d1) false) by (unfold asked; rewrite N; reflexivity).
  split; [exact E|]. split; [rewrite E; unfold sane_extent; cbn; lra|]. split; [exact L|]. split; [exact N|]. rewrite AS, L.
  assert (M0 : forall x y q, mount (mkPl 0 x y false) q = (fst q + x, snd q + y)).
  { intros x y q. unfold mount. cbn [pl_angle pl_x pl_y pl_neg]. rewrite cos_0, sin_0. f_equal; ring. }
  split.
  - intros -> [= -> ->]. split; [cbn [pl_x]; rewrite cos_0; lra|]. split.
    + intros (c0 & c1 & R & T & Z). rewrite M0, point_polar in Z. cbn [fst snd e0 e1 e2 e3] in R, T, Z. rewrite cos_0 in Z. injection Z as Z _.
      assert (0 <= cos c1) by (apply cos_ge_0; lra). assert (0 <= c0 * cos c1) by (apply Rmult_le_pos; lra). lra.
    + intros (ph & [-> | ->] & Z); cbv zeta in Z; rewrite !M0, !point_polar in Z; cbn [fst snd e1 e2 e3] in Z;
        rewrite ?cos_0, ?sin_0, ?cos_PI2, ?sin_PI2 in Z; lra.
  - intros -> [= -> ->]. replace (5 * (PI / 4)) with (PI / 4 + PI) by lra. rewrite neg_cos, neg_sin.
    assert (S : 0 < cos (PI / 4)) by (apply cos_gt_0; lra). rewrite M0, point_polar. cbn [fst snd pl_x]. split; [lra|]. f_equal; ring.
Qed.

(** What a module reports is what was asked for last. *)
Theorem C29_getters : forall id p type f h m, module_made id p type f h m ->
  getModuleID m = id /\ getTPCCoordinateType m = type /\ m_layout m = p /\ getOffset m = last_offset h /\
  getAngle m = last_angle h /\ getBorderWidth m = last_border h /\ getZPosition m = last_z h.
Proof. exact module_getters. Qed.
Print Assumptions C29_getters.

(** A local point is mapped to where the mounted point is, in every combination of coordinate types. *)
Theorem C29_local_to_global : forall id p type f h m, module_made id p type f h m -> side_settled p type h ->
  forall c0 c1, exists g, localToGlobal m c0 c1 = Ok g /\
  point type g = mount (asked type h) (point (lay_type p) (c0, c1)).
Proof. exact local_to_global. Qed.
Print Assumptions C29_local_to_global.

(** And back. *)
Theorem C29_global_to_local : forall id p type f h m, module_made id p type f h m -> side_settled p type h ->
  not_on_y_axis p type h -> forall c0 c1, exists l, globalToLocal m c0 c1 = Ok l /\
  point (lay_type p) l = unmount (asked type h) (point type (c0, c1)).
Proof. exact global_to_local. Qed.
Print Assumptions C29_global_to_local.

(** The transforms are inverse ... *)
Theorem C29_round_trip_local : forall id p type f h m, module_made id p type f h m -> side_settled p type h ->
  not_on_y_axis p type h -> forall c0 c1 g, localToGlobal m c0 c1 = Ok g ->
  exists l, globalToLocal m (fst g) (snd g) = Ok l /\ point (lay_type p) l = point (lay_type p) (c0, c1).
Proof. exact round_trip_local. Qed.
Print Assumptions C29_round_trip_local.

(** ... of each other. *)
Theorem C29_round_trip_global : forall id p type f h m, module_made id p type f h m -> side_settled p type h ->
  not_on_y_axis p type h -> forall c0 c1 l, globalToLocal m c0 c1 = Ok l ->
  exists g, localToGlobal m (fst l) (snd l) = Ok g /\ point type g = point type (c0, c1).
Proof. exact round_trip_global. Qed.
Print Assumptions C29_round_trip_global.

(** A module at the origin whose z position is set to the negative side after all setOffset and setAngle calls is not mirrored. *)
Theorem C29_side_forgotten_refuted : forall id p type f h m c0 c1, module_made id p type f h m -> at_origin p type h ->
  side_seen h = false -> negative (last_z h) = true ->
  localToGlobal m c0 c1 = Ok (c0, c1) /\ globalToLocal m c0 c1 = Ok (c0, c1) /\
  (fst (point type (c0, c1)) <> 0 ->
   point type (c0, c1) <> mount (asked type h) (point (lay_type p) (c0, c1))).
Proof. exact side_forgotten. Qed.
Print Assumptions C29_side_forgotten_refuted.

(** The distance to a module is the Euclidean distance to its mounted area. *)
Theorem C58_distance : forall id p type f h m, module_made id p type f h m -> side_settled p type h ->
  not_on_y_axis p type h -> sane_extent (lay_type p) (getLocalModuleExtent m) ->
  forall c0 c1, (type = POLAR -> 0 <= c0) ->
  exists d, getDistanceToModule m c0 c1 = Ok d /\
    is_dist (area (lay_type p) (getLocalModuleExtent m) (asked type h)) (point type (c0, c1)) d.
Proof. exact module_distance. Qed.
Print Assumptions C58_distance.

(** A point is inside a module exactly if it is in the mounted area (the centre of a full disk excepted). *)
Theorem C58_inside : forall id p type f h m, module_made id p type f h m -> side_settled p type h ->
  not_on_y_axis p type h -> sane_extent (lay_type p) (getLocalModuleExtent m) ->
  forall c0 c1, (type = POLAR -> 0 <= c0) ->
  (lay_type p = POLAR -> 0 < e0 (getLocalModuleExtent m) \/ unmount (asked type h) (point type (c0, c1)) <> (0, 0)) ->
  exists b, TpcModuleModel.isInsideModule m c0 c1 = Ok b /\
    (b = true <-> area (lay_type p) (getLocalModuleExtent m) (asked type h) (point type (c0, c1))).
Proof. exact module_inside. Qed.
Print Assumptions C58_inside.

(** Cartesian TPC: the extents after the last setOffset or setAngle call are the bounding boxes of the mounted areas. *)
Theorem C59_extents_cartesian : forall id p f h m c m', module_made id p CARTESIAN f h m -> places c ->
  call_module m c = SOk m' tt ->
  let pl := asked CARTESIAN (h ++ [c]) in
  sane_extent (lay_type p) (getLocalModuleExtent m') -> sane_extent (lay_type p) (lay_extent p) ->
  (lay_type p = POLAR -> two_turns (getLocalModuleExtent m') /\ two_turns (lay_extent p)) ->
  is_hull (area (lay_type p) (getLocalModuleExtent m') pl) (getModuleExtent m') /\
  is_hull (area (lay_type p) (lay_extent p) pl) (module_getPlaneExtent m').
Proof. exact extents_cartesian. Qed.
Print Assumptions C59_extents_cartesian.

(** Polar TPC, module not moved: the extent describes exactly the mounted area. *)
Theorem C59_extents_polar_centred : forall id p f h m c m', module_made id p POLAR f h m -> lay_type p = POLAR -> places c ->
  call_module m c = SOk m' tt -> fst (last_offset (h ++ [c])) = 0 ->
  sane_extent POLAR (getLocalModuleExtent m') -> 0 < e3 (getLocalModuleExtent m') - e2 (getLocalModuleExtent m') < 2 * PI ->
  let e := getModuleExtent m' in
  e0 e = e0 (getLocalModuleExtent m') /\ e1 e = e1 (getLocalModuleExtent m') /\ 0 <= e3 e <= 2 * PI /\
  e3 e - e2 e = e3 (getLocalModuleExtent m') - e2 (getLocalModuleExtent m') /\
  forall q, area POLAR (getLocalModuleExtent m') (asked POLAR (h ++ [c])) q <-> area POLAR e (mkPl 0 0 0 false) q.
Proof. exact extents_polar_centred. Qed.
Print Assumptions C59_extents_polar_centred.

(** Polar TPC, moved module: the radii are the smallest and largest distance of the mounted area from the origin. *)
Theorem C59_extents_polar_radius : forall id p f h m c m', module_made id p POLAR f h m -> lay_type p = POLAR -> places c ->
  call_module m c = SOk m' tt -> pl_x (asked POLAR (h ++ [c])) <> 0 ->
  sane_extent POLAR (getLocalModuleExtent m') -> two_turns (getLocalModuleExtent m') ->
  is_radius_range (area POLAR (getLocalModuleExtent m') (asked POLAR (h ++ [c]))) (e0 (getModuleExtent m')) (e1 (getModuleExtent m')).
Proof. exact extents_polar_radius. Qed.
Print Assumptions C59_extents_polar_radius.

(** Polar TPC, moved module with the origin outside: the phi values are the range of directions in which the mounted area is seen from the origin, unless a line of sight touches the outer circle exactly at a corner. *)
Theorem C59_extents_polar_angle : forall id p f h m c m', module_made id p POLAR f h m -> lay_type p = POLAR -> places c ->
  call_module m c = SOk m' tt ->
  let pl := asked POLAR (h ++ [c]) in pl_x pl <> 0 ->
  (sane_extent POLAR (getLocalModuleExtent m') -> ~ area POLAR (getLocalModuleExtent m') pl (0, 0) ->
   ~ grazes_corner (getLocalModuleExtent m') pl ->
   is_angle_range (area POLAR (getLocalModuleExtent m') pl) (e2 (getModuleExtent m')) (e3 (getModuleExtent m'))) /\
  (sane_extent POLAR (lay_extent p) -> ~ area POLAR (lay_extent p) pl (0, 0) -> ~ grazes_corner (lay_extent p) pl ->
   is_angle_range (area POLAR (lay_extent p) pl) (e2 (module_getPlaneExtent m')) (e3 (module_getPlaneExtent m'))).
Proof. exact extents_polar_angle. Qed.
Print Assumptions C59_extents_polar_angle.

(** Polar TPC, moved module with the origin in its interior: the phi range is the full turn, as it should be. *)
Theorem C59_extents_polar_surrounding : forall id p f h m c m', module_made id p POLAR f h m -> lay_type p = POLAR -> places c ->
  call_module m c = SOk m' tt ->
  let pl := asked POLAR (h ++ [c]) in let l := getLocalModuleExtent m' in pl_x pl <> 0 -> sane_extent POLAR l ->
  (exists r t, e0 l < r < e1 l /\ e2 l < t < e3 l /\ mount pl (point POLAR (r, t)) = (0, 0)) ->
  e2 (getModuleExtent m') = 0 /\ e3 (getModuleExtent m') = 2 * PI /\
  is_angle_range (area POLAR l pl) (e2 (getModuleExtent m')) (e3 (getModuleExtent m')).
Proof. exact extents_polar_surrounding. Qed.
Print Assumptions C59_extents_polar_surrounding.

(** If a line of sight does touch the outer circle exactly at a corner, the reported range can be wrong: here it ends at 7 pi / 4 although nothing is seen between pi / 4 and there. *)
Theorem C59_grazed_corner_refuted : forall id p f h m c m', module_made id p POLAR f h m -> lay_type p = POLAR -> places c ->
  call_module m c = SOk m' tt ->
  let l := getLocalModuleExtent m' in sane_extent POLAR l -> e0 l < e1 l -> e3 l <= e2 l + 3 / 2 * PI ->
  negative (last_z (h ++ [c])) = false -> last_offset (h ++ [c]) = (sqrt 2 * e1 l, 0) -> last_angle (h ++ [c]) = 5 * (PI / 4) - e2 l ->
  let pl := asked POLAR (h ++ [c]) in
  e3 (getModuleExtent m') = 7 * (PI / 4) /\
  (forall th, PI / 4 < th < 7 * (PI / 4) -> ~ exists q, area POLAR l pl q /\ direction q th) /\
  ~ is_angle_range (area POLAR l pl) (e2 (getModuleExtent m')) (e3 (getModuleExtent m')).
Proof. exact extents_polar_grazed. Qed.
Print Assumptions C59_grazed_corner_refuted.

(** A full ring that is turned gets an extent of zero width. *)
Theorem C59_full_ring_refuted : forall id p f h m c m', module_made id p POLAR f h m -> lay_type p = POLAR -> places c ->
  call_module m c = SOk m' tt -> fst (last_offset (h ++ [c])) = 0 -> negative (last_z (h ++ [c])) = false ->
  0 < last_angle (h ++ [c]) < 2 * PI -> e2 (lay_extent p) = 0 -> e3 (lay_extent p) = 2 * PI ->
  e2 (module_getPlaneExtent m') = e3 (module_getPlaneExtent m').
Proof. exact full_ring_lost. Qed.
Print Assumptions C59_full_ring_refuted.

(** The border is added on all sides. *)
Theorem C60_border_cartesian : forall id p type f h m, module_made id p type f h m -> lay_type p = CARTESIAN ->
  let b := last_border h in let e := lay_extent p in
  getLocalModuleExtent m = mkE (e0 e - b) (e1 e + b) (e2 e - b) (e3 e + b).
Proof. exact border_cartesian. Qed.
Print Assumptions C60_border_cartesian.

(** Polar layouts: the same, the angle being measured at the inner radius. *)
Theorem C60_border_polar : forall id p type f h m, module_made id p type f h m -> lay_type p = POLAR ->
  let b := last_border h in let e := lay_extent p in 0 < e0 e -> 0 < e1 e ->
  e3 e - e2 e + 2 * (b / e0 e) <= 2 * PI ->
  getLocalModuleExtent m = mkE (Rmax (e0 e - b) 0) (e1 e + b) (e2 e - b / e0 e) (e3 e + b / e0 e).
Proof. exact border_polar. Qed.
Print Assumptions C60_border_polar.

(** If the border exceeds a full turn the module becomes narrower than its pads. *)
Theorem C60_border_too_wide_refuted : forall id p type f h m, module_made id p type f h m -> lay_type p = POLAR ->
  let b := last_border h in let e := lay_extent p in 0 < e0 e -> 0 < e1 e -> b <> 0 ->
  2 * PI < e3 e - e2 e + 2 * (b / e0 e) ->
  e2 e < e2 (getLocalModuleExtent m) /\ e3 (getLocalModuleExtent m) < e3 e /\
  e3 (getLocalModuleExtent m) - e2 (getLocalModuleExtent m) = 2 * PI - 2 * (b / e0 e).
Proof. exact border_too_wide. Qed.
Print Assumptions C60_border_too_wide_refuted.

(** Which calls succeed. *)
Theorem C61_calls_succeed : forall id p type f h m c, module_made id p type f h m ->
  (type = POLAR -> lay_type p = POLAR) ->
  (lay_type p = POLAR -> 0 < e0 (lay_extent p) <= e1 (lay_extent p) /\ 0 <= last_border (h ++ [c])) ->
  exists m', call_module m c = SOk m' tt.
Proof. exact calls_succeed. Qed.
Print Assumptions C61_calls_succeed.

(** Rectangular layouts can not be mounted in a polar TPC. *)
Theorem C61_calls_not_implemented : forall id p f h m c, module_made id p POLAR f h m -> lay_type p = CARTESIAN -> places c ->
  exists m' e, call_module m c = SThrow m' (ENotImplemented e).
Proof. exact calls_not_implemented. Qed.
Print Assumptions C61_calls_not_implemented.

(** Every history of calls can be made. *)
Theorem C61_every_history : forall id p type f h, known_type type -> (type = POLAR -> lay_type p = POLAR) ->
  (lay_type p = POLAR -> 0 < e0 (lay_extent p) <= e1 (lay_extent p) /\ forall b, In (MBorder b) h -> 0 <= b) ->
  exists m, module_made id p type f h m.
Proof. exact history_exists. Qed.
Print Assumptions C61_every_history.
