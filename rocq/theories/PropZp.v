(** Property theorems for C42, C62, C63, C64: planar ladders *)
From Coq Require Import ZArith List Bool Reals Lia Lra.
From Verif Require Import Base RBase VecModel DiskSpec ZpModel ZpSpec ZpProofs ZpProofs2 ZpProofs3 ZpProofs4 ZpProofs5 ZpProofs6.
Import ListNotations.
Open Scope R_scope.

(** The detector of the examples: ten ladders, the first on the x axis, and sixteen further out. *)
Definition ex_q : zpart := mkZP 15 0 (1/10) 60 11 93.
Definition ex_s : zpart := mkZP 15 0 (1/20) 60 10 93.
Definition ex_q2 : zpart := mkZP 30 1 (1/10) 100 14 93.
Definition ex_a : zargs := mkZA 10 0 ex_q ex_s.
Definition ex_a2 : zargs := mkZA 16 (PI / 16) ex_q2 ex_q2.
Definition ex_h : list zargs := [ex_a; ex_a2].
Lemma ex_az0 : azimuth ex_a 0 = 0. Proof. unfold azimuth. cbn. ring. Qed.
Lemma ex_along : forall x y z, along 0 (mkVec x y z) = x. Proof. intros. unfold along. cbn. rewrite cos_0, sin_0. ring. Qed.
Lemma ex_across : forall x y z, across 0 (mkVec x y z) = y. Proof. intros. unfold across. cbn. rewrite cos_0, sin_0. ring. Qed.
Lemma ex_args : forall a sensitive, In a ex_h -> args_ok a /\ (3 <= za_n a)%Z /\ part_ok (part_of a sensitive) /\ 0 < q_len (part_of a sensitive).
Proof.
  intros a sensitive H. pose proof PI_RGT_0. destruct H as [<-|[<-|[]]]; destruct sensitive; unfold args_ok, part_ok; cbn; repeat split; try lra; try lia.
Qed.
(** A point inside the first ladder. *)
Example inside_case : let p := mkVec 15.05 1 5 in
  In ex_a ex_h /\ args_ok ex_a /\ (0 <= 0 < za_n ex_a)%Z /\ 0 < q_d (part_of ex_a false) /\ covers_normal (part_of ex_a false) /\
  in_volume 2 (part_of ex_a false) (azimuth ex_a 0) p /\ within_shell 65 2 p /\ ~ below_origin p.
Proof.
  intros p. split; [now left|]. split; [now apply ex_args; [exact false|left]|]. split; [cbn; lia|]. split; [cbn; lra|].
  split; [unfold covers_normal; cbn; rewrite Rabs_R0; lra|].
  split; [|split; [unfold within_shell, p; cbn [vz]; rewrite (Rabs_pos_eq 5) by lra; intros; lra|unfold below_origin, p; cbn; lra]].
  unfold in_volume, p. rewrite ex_az0, ex_along, ex_across. cbn. rewrite Rabs_pos_eq by lra. lra.
Qed.
(** A point outside all ladders, close enough to one. *)
Example outside_case : let p := mkVec 10 0 5 in
  ~ below_origin p /\ isPointInLadder (zp_made 1 0 0 65 2 0 ex_h) p false = None /\
  looked_at ex_h p ex_a 0 /\ on_surface 2 (part_of ex_a false) (azimuth ex_a 0) (mkVec 15 0 5) /\ vdist p (mkVec 15 0 5) < 99999.99.
Proof.
  intros p. split; [unfold below_origin, p; cbn; lra|]. split; [|split; [|split]].
  - unfold isPointInLadder. destruct (made_parts 1 0 0 65 2 0 ex_h false) as (E1 & E2 & E3). rewrite E1, E2, E3.
    destruct (Rltb (1 / 1000) (Rabs 65) && _)%bool; [reflexivity|]. cbn [map ex_h layer_loop].
    assert (S : sqrt (vx p * vx p + vy p * vy p) = 10).
    { unfold p. cbn [vx vy]. replace (10 * 10 + 0 * 0) with (10 * 10) by ring. apply sqrt_square. lra. }
    rewrite S. unfold EPS. cbn [layer_of part_of ex_a ex_a2 ex_q ex_q2 za_lad zl_d q_d].
    destruct (Rltb_spec 10 (15 - 1 / 10000)); [|lra]. destruct (Rltb_spec 10 (30 - 1 / 10000)); [|lra]. reflexivity.
  - split; [now left|]. split; [cbn; lia|]. exists 10, 0. rewrite ex_az0, cos_0, sin_0. unfold p. cbn. pose proof PI_RGT_0.
    rewrite Rminus_0_r, Rabs_R0. repeat split; lra.
  - unfold on_surface, in_volume. rewrite ex_az0, ex_along, ex_across. cbn. rewrite Rabs_pos_eq by lra. split; [lra|now left].
  - unfold vdist, p. cbn [vx vy vz]. replace ((15 - 10) * (15 - 10) + (0 - 0) * (0 - 0) + (5 - 5) * (5 - 5)) with (5 * 5) by ring. rewrite sqrt_square; lra.
Qed.
(** Layers of two ladders only. *)
Example two_ladders_case : let a := mkZA 2 (PI / 2) ex_q ex_s in let p := mkVec 10 0 5 in
  args_ok a /\ (za_n a <= 2)%Z /\ ~ below_origin p /\ forall m, ~ azimuth_within p (azimuth a m) 0.
Proof.
  intros a p. pose proof PI_RGT_0. split; [unfold args_ok; cbn; split; [lra|lia]|]. split; [cbn; lia|]. split; [unfold below_origin, p; cbn; lra|].
  intros m (rho & f & Hr & Hx & Hy & Hf). unfold p in Hx. cbn [vx] in Hx. pose proof (Rabs_pos (f - azimuth a m)) as A.
  assert (E : f - azimuth a m = 0) by (destruct (Req_dec (f - azimuth a m) 0); [assumption|pose proof (Rabs_pos_lt _ H0); lra]).
  assert (E1 : f = PI / 2 + IZR m * PI) by (unfold azimuth, a in E; cbn in E; lra).
  assert (C : cos f = 0).
  { rewrite E1. rewrite cos_plus, cos_PI2, sin_PI2. replace (sin (IZR m * PI)) with 0; [ring|]. symmetry. apply sin_eq_0_1. exists m. reflexivity. }
  rewrite C in Hx. lra.
Qed.
(** A line that meets a ladder; the same line at negative z; and a line from the origin without gap. *)
Example crossing_case : let v := mkVec 1 0 0 in
  (on_ray (mkVec 0 0 5) v (mkVec 15 0 5) /\ crossed 2 (part_of ex_a false) (azimuth ex_a 0) v (mkVec 15 0 5) /\ vdist (mkVec 0 0 5) (mkVec 15 0 5) < 99999) /\
  (on_ray (mkVec 0 0 (-50)) v (mkVec 15 0 (-50)) /\ on_surface 2 (part_of ex_a false) (azimuth ex_a 0) (mkVec 15 0 (-50)) /\ vz (mkVec 0 0 (-50)) < 0 /\ vz v = 0) /\
  (on_ray vzero v (mkVec 15 0 0) /\ crossed 0 (part_of ex_a false) (azimuth ex_a 0) v (mkVec 15 0 0) /\ covers_normal (part_of ex_a false) /\ along (azimuth ex_a 5) v <= 0).
Proof.
  intros v. split; [|split].
  - split; [exists 15; cbn; repeat split; lra|]. split.
    + unfold crossed, in_volume. unfold v. rewrite ex_az0, !ex_along, !ex_across. cbn. rewrite Rabs_pos_eq by lra. split; [lra|]. left. lra.
    + unfold vdist. cbn [vx vy vz]. replace ((15 - 0) * (15 - 0) + (0 - 0) * (0 - 0) + (5 - 5) * (5 - 5)) with (15 * 15) by ring. rewrite sqrt_square; lra.
  - split; [exists 15; cbn; repeat split; lra|]. split; [|cbn; lra].
    unfold on_surface, in_volume. rewrite ex_az0, ex_along, ex_across. cbn. replace (Rabs (-50)) with 50 by (rewrite Rabs_left; lra). split; [lra|now left].
  - split; [exists 15; cbn; repeat split; lra|]. split.
    + unfold crossed, in_volume. unfold v. rewrite ex_az0, !ex_along, !ex_across. cbn. rewrite Rabs_pos_eq by lra. split; [lra|]. left. lra.
    + split; [unfold covers_normal; cbn; rewrite Rabs_R0; lra|]. unfold along, azimuth, v. cbn. replace (0 + 5 * (2 * PI / 10)) with PI by field. rewrite cos_PI, sin_PI. lra.
Qed.
(** A layer for the thickness: the left corner exists. *)
Example thickness_case : let q := mkZP 1 0 1 10 2 93 in let a := mkZA 4 (PI / 2) q q in
  layer_args [a] 0 = Some a /\ za_phi0 a = PI / 2 /\ za_lad a = za_sen a /\ part_ok (za_lad a) /\ covers_normal (za_lad a) /\ - PI <= - (PI / 4) <= PI /\
  (forall sensitive so, zp_getStartOuterPhi (zp_made 1 0 0 65 2 0 [a]) 0 sensitive = Ok so -> - (PI / 4) < so) /\ sin (za_phi0 a) <> 0.
Proof.
  intros q a. pose proof PI_RGT_0. split; [reflexivity|]. split; [reflexivity|]. split; [reflexivity|]. split; [unfold part_ok; cbn; lra|].
  split; [unfold covers_normal; cbn; rewrite Rabs_R0; lra|]. split; [lra|]. split.
  - intros sensitive so E. assert (E2 : so = PI / 2 - PI / 2 - atan ((2 / 2 + 0) / (1 + 1))) by (destruct sensitive; injection E as <-; reflexivity).
    replace ((2 / 2 + 0) / (1 + 1)) with (1 / 2) in E2 by field. assert (atan (1 / 2) < PI / 4) by (rewrite <- atan_1; apply atan_increasing; lra). lra.
  - cbn. rewrite sin_PI2. lra.
Qed.

(** What was given to addLayer is what the getters return; another index throws. *)
Theorem C42_values : forall type rIn rOut half gap rad h i, let z := zp_made type rIn rOut half gap rad h in
  zp_getNLayers z = Z.of_nat (List.length h) /\
  answers_zp h i (zp_getNLadders z i) za_n /\ answers_zp h i (zp_getPhi0 z i) za_phi0 /\
  answers_zp h i (zp_getLadderRadLength z i) (fun a => q_rad (za_lad a)) /\
  answers_zp h i (zp_getLadderDistance z i) (fun a => q_d (za_lad a)) /\
  answers_zp h i (zp_getLadderThickness z i) (fun a => q_t (za_lad a)) /\
  answers_zp h i (zp_getLadderOffset z i) (fun a => q_off (za_lad a)) /\
  answers_zp h i (zp_getLadderWidth z i) (fun a => q_w (za_lad a)) /\
  answers_zp h i (zp_getLadderLength z i) (fun a => q_len (za_lad a)) /\
  answers_zp h i (zp_getSensitiveRadLength z i) (fun a => q_rad (za_sen a)) /\
  answers_zp h i (zp_getSensitiveDistance z i) (fun a => q_d (za_sen a)) /\
  answers_zp h i (zp_getSensitiveThickness z i) (fun a => q_t (za_sen a)) /\
  answers_zp h i (zp_getSensitiveOffset z i) (fun a => q_off (za_sen a)) /\
  answers_zp h i (zp_getSensitiveWidth z i) (fun a => q_w (za_sen a)) /\
  answers_zp h i (zp_getSensitiveLength z i) (fun a => q_len (za_sen a)).
Proof. exact zp_values. Qed.
Print Assumptions C42_values.

(** getMaxRadius is the largest distance from the beam axis of a point of the layer. *)
Theorem C42_max_radius : forall type rIn rOut half gap rad h i sensitive a m, let z := zp_made type rIn rOut half gap rad h in
  layer_args h i = Some a -> part_ok (part_of a sensitive) -> 0 <= gap ->
  exists r, zp_getMaxRadius z i sensitive = Ok r /\
  (forall p, in_volume gap (part_of a sensitive) (azimuth a m) p -> sqrt (vx p * vx p + vy p * vy p) <= r) /\
  (exists p, in_volume gap (part_of a sensitive) (azimuth a m) p /\ sqrt (vx p * vx p + vy p * vy p) = r).
Proof. exact max_radius_exact. Qed.
Print Assumptions C42_max_radius.

(** The inner start and end angles point at the two edges of the inner face of the first ladder. *)
Theorem C42_inner_angles : forall type rIn rOut half gap rad h i (sensitive : bool), let z := zp_made type rIn rOut half gap rad h in
  match layer_args h i with
  | Some a => let q := part_of a sensitive in 0 < q_d q -> exists f g,
      zp_getStartInnerPhi z i sensitive = Ok f /\ zp_getEndInnerPhi z i sensitive = Ok g /\
      (exists rho, 0 < rho /\ along (za_phi0 a) (at_angle f rho) = q_d q /\ across (za_phi0 a) (at_angle f rho) = q_off q + q_w q / 2) /\
      (exists rho, 0 < rho /\ along (za_phi0 a) (at_angle g rho) = q_d q /\ across (za_phi0 a) (at_angle g rho) = q_off q - q_w q / 2)
  | None => (exists e, zp_getStartInnerPhi z i sensitive = Throw (EOutOfRange e)) /\ (exists e, zp_getEndInnerPhi z i sensitive = Throw (EOutOfRange e))
  end.
Proof. exact inner_angles. Qed.
Print Assumptions C42_inner_angles.

(** The outer angles point at the edges of the outer face, but of the sensitive part if the ladder is asked for and the other way round. *)
Theorem C42_outer_angles : forall type rIn rOut half gap rad h i (sensitive : bool), let z := zp_made type rIn rOut half gap rad h in
  match layer_args h i with
  | Some a => let q := part_of a (negb sensitive) in 0 < q_d q -> 0 <= q_t q -> exists f g,
      zp_getStartOuterPhi z i sensitive = Ok f /\ zp_getEndOuterPhi z i sensitive = Ok g /\
      (exists rho, 0 < rho /\ along (za_phi0 a) (at_angle f rho) = q_d q + q_t q /\ across (za_phi0 a) (at_angle f rho) = q_off q + q_w q / 2) /\
      (exists rho, 0 < rho /\ along (za_phi0 a) (at_angle g rho) = q_d q + q_t q /\ across (za_phi0 a) (at_angle g rho) = q_off q - q_w q / 2)
  | None => (exists e, zp_getStartOuterPhi z i sensitive = Throw (EOutOfRange e)) /\ (exists e, zp_getEndOuterPhi z i sensitive = Throw (EOutOfRange e))
  end.
Proof. exact outer_angles. Qed.
Print Assumptions C42_outer_angles.

(** The thickness under an angle, for a first ladder on the y axis: exact, except that in the corner on the left of the outer face it is negative. *)
Theorem C42_thickness : forall type rIn rOut half gap rad h i sensitive a f, let z := zp_made type rIn rOut half gap rad h in
  layer_args h i = Some a -> za_phi0 a = PI / 2 -> za_lad a = za_sen a -> part_ok (za_lad a) -> covers_normal (za_lad a) -> - PI <= f <= PI ->
  exists so x, zp_getStartOuterPhi z i sensitive = Ok so /\ zp_getThicknessForPhi z i f sensitive = Ok x /\
  (x = -1 /\ (forall rho, 0 <= rho -> ~ in_section (za_lad a) (PI / 2) (at_angle f rho)) \/
   exists len, path_length (za_lad a) (PI / 2) f len /\ (so <= f /\ x = len \/ f < so /\ x < 0)).
Proof. exact thickness_top. Qed.
Print Assumptions C42_thickness.

(** For any other first angle even the thickness along the normal is wrong. *)
Theorem C42_thickness_other_refuted : forall type rIn rOut half gap rad h i sensitive a, let z := zp_made type rIn rOut half gap rad h in
  layer_args h i = Some a -> za_lad a = za_sen a -> part_ok (za_lad a) -> covers_normal (za_lad a) -> sin (za_phi0 a) <> 0 ->
  path_length (za_lad a) (za_phi0 a) (PI / 2 - za_phi0 a) (q_t (za_lad a)) /\
  zp_getThicknessForPhi z i (PI / 2 - za_phi0 a) sensitive = Ok (q_t (za_lad a) / sin (za_phi0 a)).
Proof. exact thickness_other. Qed.
Print Assumptions C42_thickness_other_refuted.

(** Every point of a ladder is found ... *)
Theorem C62_inside_found : forall type rIn rOut half gap rad h sensitive a m p,
  In a h -> args_ok a -> (0 <= m < za_n a)%Z -> 0 < q_d (part_of a sensitive) -> covers_normal (part_of a sensitive) ->
  in_volume gap (part_of a sensitive) (azimuth a m) p -> within_shell half gap p -> ~ below_origin p ->
  isPointInLadder (zp_made type rIn rOut half gap rad h) p sensitive <> None.
Proof. exact point_in_ladder. Qed.
Print Assumptions C62_inside_found.

(** ... and a point that is found belongs to the reported ladder up to a tolerance. *)
Theorem C62_found_inside : forall type rIn rOut half gap rad h sensitive p id, 0 <= gap ->
  (forall a, In a h -> part_ok (part_of a sensitive)) ->
  isPointInLadder (zp_made type rIn rOut half gap rad h) p sensitive = Some id ->
  within_shell half gap p /\ (0 <= s_layer id)%Z /\ s_side id = (if Rleb 0 (vz p) then 1 else -1)%Z /\
  exists a, nth_error h (Z.to_nat (s_layer id)) = Some a /\ (0 <= s_module id < za_n a)%Z /\
  exists p', in_volume gap (part_of a sensitive) (azimuth a (s_module id)) p' /\ vdist p p' <= 1 / 1000 * (1 + q_t (part_of a sensitive)).
Proof. exact point_found_near. Qed.
Print Assumptions C62_found_inside.

(** Points of a ladder that are exactly below the beam axis are not found. *)
Theorem C62_below_refuted : exists h p a, h = [a] /\ args_ok a /\ part_ok (za_lad a) /\ covers_normal (za_lad a) /\
  in_volume 0 (za_lad a) (azimuth a 0) p /\ within_shell 0 0 p /\ isPointInLadder (zp_made 1 0 0 0 0 0 h) p false = None.
Proof. exact below_missed. Qed.
Print Assumptions C62_below_refuted.

(** The vector leads to the nearest surface point among the ladders whose normal is within one pitch. *)
Theorem C63_nearest : forall type rIn rOut half gap rad h sensitive p, 0 <= gap ->
  (forall a, In a h -> args_ok a /\ (3 <= za_n a)%Z /\ part_ok (part_of a sensitive)) ->
  ~ below_origin p -> isPointInLadder (zp_made type rIn rOut half gap rad h) p sensitive = None ->
  (exists a m u, looked_at h p a m /\ on_surface gap (part_of a sensitive) (azimuth a m) u /\ vdist p u < 99999.99) ->
  let v := distanceToNearestLadder (zp_made type rIn rOut half gap rad h) p sensitive in
  (exists a m, looked_at h p a m /\ on_surface gap (part_of a sensitive) (azimuth a m) (vadd p v)) /\
  (forall a m u, looked_at h p a m -> on_surface gap (part_of a sensitive) (azimuth a m) u -> vlen v <= vdist p u).
Proof. exact nearest_ladder. Qed.
Print Assumptions C63_nearest.

(** Inside a ladder it is zero. *)
Theorem C63_inside : forall type rIn rOut half gap rad h sensitive p,
  isPointInLadder (zp_made type rIn rOut half gap rad h) p sensitive <> None ->
  distanceToNearestLadder (zp_made type rIn rOut half gap rad h) p sensitive = vzero.
Proof. exact distance_inside. Qed.
Print Assumptions C63_inside.

(** With one or two ladders per layer it is zero everywhere (off the normals). *)
Theorem C63_few_refuted : forall type rIn rOut half gap rad h sensitive p,
  (forall a, In a h -> args_ok a /\ (za_n a <= 2)%Z) -> ~ below_origin p ->
  (forall a m, In a h -> ~ azimuth_within p (azimuth a m) 0) ->
  distanceToNearestLadder (zp_made type rIn rOut half gap rad h) p sensitive = vzero.
Proof. exact few_ladders. Qed.
Print Assumptions C63_few_refuted.

(** At the origin it is perpendicular to the normal of the first ladder. *)
Theorem C63_origin_refuted : forall type rIn rOut half gap rad a h sensitive,
  isPointInLadder (zp_made type rIn rOut half gap rad (a :: h)) vzero sensitive = None ->
  along (za_phi0 a) (distanceToNearestLadder (zp_made type rIn rOut half gap rad (a :: h)) vzero sensitive) = 0.
Proof. exact distance_origin. Qed.
Print Assumptions C63_origin_refuted.

(** The first crossing of a line with a ladder surface, or the origin if there is none. *)
Theorem C64_first_crossing : forall type rIn rOut half gap rad h sensitive p v, 0 < gap ->
  (forall a, In a h -> (1 <= za_n a)%Z /\ part_ok (part_of a sensitive) /\ 0 < q_len (part_of a sensitive)) ->
  let r := intersectionLadder (zp_made type rIn rOut half gap rad h) p v sensitive in
  let meets := fun x => on_ray p v x /\ exists a m, In a h /\ (0 <= m < za_n a)%Z /\ crossed gap (part_of a sensitive) (azimuth a m) v x in
  (r = vzero /\ (forall x, meets x -> 99999 <= vdist p x)) \/
  (r <> vzero /\ meets r /\ vdist p r < 99999 /\ (forall x, meets x -> vdist p r <= vdist p x)).
Proof. exact first_crossing. Qed.
Print Assumptions C64_first_crossing.

(** Ladders at negative z are not seen by lines parallel to the xy plane. *)
Theorem C64_negative_half_refuted : forall type rIn rOut half gap rad h sensitive p v, 0 < gap ->
  (forall a, In a h -> (1 <= za_n a)%Z /\ part_ok (part_of a sensitive) /\ 0 < q_len (part_of a sensitive)) ->
  vz p < 0 -> vz v = 0 -> intersectionLadder (zp_made type rIn rOut half gap rad h) p v sensitive = vzero.
Proof. exact negative_half_missed. Qed.
Print Assumptions C64_negative_half_refuted.

(** Without gap all lines from the origin are reported to meet nothing if one ladder is behind. *)
Theorem C64_no_gap_refuted : forall type rIn rOut half rad h sensitive v a m, In a h -> (0 <= m < za_n a)%Z ->
  0 <= q_len (part_of a sensitive) -> 0 < q_d (part_of a sensitive) -> covers_normal (part_of a sensitive) ->
  along (azimuth a m) v <= 0 ->
  intersectionLadder (zp_made type rIn rOut half 0 rad h) vzero v sensitive = vzero.
Proof. exact from_origin_no_gap. Qed.
Print Assumptions C64_no_gap_refuted.
