(** The getters of the planar layers. *)
From Coq Require Import String ZArith List Bool Reals Lra Lia Psatz.
From Verif Require Import Base RBase VecModel DiskSpec RectSpec Trig ZpModel ZpSpec ZpProofs ZpProofs2 ZpProofs3.
Import ListNotations.
Open Scope R_scope.

Lemma nthZ_args : forall h i, nthZ h i = layer_args h i.
Proof. reflexivity. Qed.
Lemma ladder_at : forall type rIn rOut half gap rad h i, let z := zp_made type rIn rOut half gap rad h in
  at_ (z_l z) i = match layer_args h i with Some a => Ok (layer_of a (za_lad a)) | None => Throw (EOutOfRange "vector::at"%string) end.
Proof.
  intros. unfold z. rewrite (proj1 (made_l type rIn rOut half gap rad h)). unfold at_. rewrite <- nthZ_args. unfold nthZ.
  destruct (i <? 0)%Z; [reflexivity|]. rewrite nth_error_map. destruct (nth_error h _); reflexivity.
Qed.
Lemma sens_at : forall type rIn rOut half gap rad h i, let z := zp_made type rIn rOut half gap rad h in
  at_ (z_s z) i = match layer_args h i with Some a => Ok (layer_of a (za_sen a)) | None => Throw (EOutOfRange "vector::at"%string) end.
Proof.
  intros. unfold z. rewrite (proj2 (made_l type rIn rOut half gap rad h)). unfold at_. rewrite <- nthZ_args. unfold nthZ.
  destruct (i <? 0)%Z; [reflexivity|]. rewrite nth_error_map. destruct (nth_error h _); reflexivity.
Qed.

Lemma zp_values : forall type rIn rOut half gap rad h i, let z := zp_made type rIn rOut half gap rad h in
  zp_getNLayers z = Z.of_nat (List.length h) /\
  answers_zp h i (zp_getNLadders z i) za_n /\ answers_zp h i (zp_getPhi0 z i) za_phi0 /\
  answers_zp h i (zp_getLadderRadLength z i) (fun a => q_rad (za_lad a)) /\
  answers_zp h i (zp_getLadderDistance z i) (fun a => q_d (za_lad a)) /\
  answers_zp h i (zp_getLadderThickness z i) (fun a => q_t (za_lad a)) /\
  answers_zp h i (zp_getLadderOffset z i) (fun a => q_off (za_lad a)) /\
  answers_zp h i (zp_getLadderWidth z i) (fun a => q_w (za_lad a)) /\
  answers_zp h i (zp_getLadderLength z i) (fun a => q_len (za_lad a)) /\
  answers_zp h i (zp_getSensitiveRadLength z i) (fun a => q_rad (za_sen a)) /\
  answers_zp h i (zp_getSensitiveDistance z i) (fun a => q_d (za_sen a)) /\
  answers_zp h i (zp_getSensitiveThickness z i) (fun a => q_t (za_sen a)) /\
  answers_zp h i (zp_getSensitiveOffset z i) (fun a => q_off (za_sen a)) /\
  answers_zp h i (zp_getSensitiveWidth z i) (fun a => q_w (za_sen a)) /\
  answers_zp h i (zp_getSensitiveLength z i) (fun a => q_len (za_sen a)).
Proof.
  intros type rIn rOut half gap rad h i z. split.
  { unfold zp_getNLayers, z. rewrite (proj1 (made_l type rIn rOut half gap rad h)), map_length. reflexivity. }
  unfold zp_getNLadders, zp_getPhi0, zp_getLadderRadLength, zp_getLadderDistance, zp_getLadderThickness, zp_getLadderOffset, zp_getLadderWidth,
    zp_getLadderLength, zp_getSensitiveRadLength, zp_getSensitiveDistance, zp_getSensitiveThickness, zp_getSensitiveOffset, zp_getSensitiveWidth,
    zp_getSensitiveLength, answers_zp, of_ladder, of_sens, z. rewrite !ladder_at, !sens_at.
  destruct (layer_args h i) as [a|]; cbn.
  - repeat split. f_equal. ring.
  - repeat (split; [eexists; reflexivity|]). eexists. reflexivity.
Qed.

Lemma part_at : forall type rIn rOut half gap rad h i (sensitive : bool), let z := zp_made type rIn rOut half gap rad h in
  at_ (if sensitive then z_s z else z_l z) i =
  match layer_args h i with Some a => Ok (layer_of a (part_of a sensitive)) | None => Throw (EOutOfRange "vector::at"%string) end.
Proof. intros. destruct sensitive; [apply sens_at|apply ladder_at]. Qed.
Lemma part_at' : forall type rIn rOut half gap rad h i (sensitive : bool), let z := zp_made type rIn rOut half gap rad h in
  at_ (if negb sensitive then z_l z else z_s z) i =
  match layer_args h i with Some a => Ok (layer_of a (part_of a sensitive)) | None => Throw (EOutOfRange "vector::at"%string) end.
Proof. intros. destruct sensitive; [apply sens_at|apply ladder_at]. Qed.
Lemma part_at_inv : forall type rIn rOut half gap rad h i (sensitive : bool), let z := zp_made type rIn rOut half gap rad h in
  at_ (if sensitive then z_l z else z_s z) i =
  match layer_args h i with Some a => Ok (layer_of a (part_of a (negb sensitive))) | None => Throw (EOutOfRange "vector::at"%string) end.
Proof. intros. destruct sensitive; [apply ladder_at|apply sens_at]. Qed.

(** ** the largest radius *)
Lemma max_radius_exact : forall type rIn rOut half gap rad h i sensitive a m, let z := zp_made type rIn rOut half gap rad h in
  layer_args h i = Some a -> part_ok (part_of a sensitive) -> 0 <= gap ->
  exists r, zp_getMaxRadius z i sensitive = Ok r /\
  (forall p, in_volume gap (part_of a sensitive) (azimuth a m) p -> sqrt (vx p * vx p + vy p * vy p) <= r) /\
  (exists p, in_volume gap (part_of a sensitive) (azimuth a m) p /\ sqrt (vx p * vx p + vy p * vy p) = r).
Proof.
  intros type rIn rOut half gap rad h i sensitive a m z E (Q1 & Q2 & Q3 & Q4) Hg. unfold zp_getMaxRadius, z. rewrite part_at, E. cbn [rmap].
  set (q := part_of a sensitive) in *. set (az := azimuth a m). eexists. split; [reflexivity|]. unfold maxRadius, layer_of. cbn [zl_d zl_t zl_w zl_off].
  set (W := q_w q / 2 + Rabs (q_off q)). set (D := q_d q + q_t q). pose proof (cs1 az) as T.
  assert (N : forall p, vx p * vx p + vy p * vy p = along az p * along az p + across az p * across az p).
  { intros p. unfold along, across. transitivity ((vx p * vx p + vy p * vy p) * (cos az * cos az + sin az * sin az)); [rewrite T; ring|ring]. }
  split.
  - intros p (V1 & V2 & _). rewrite N. apply sqrt_le_1_alt. apply Rplus_le_compat.
    + apply Rmult_le_compat; unfold D; lra.
    + assert (S : across az p * across az p = Rabs (across az p) * Rabs (across az p)) by (unfold Rabs; destruct (Rcase_abs _); ring). rewrite S.
      apply Rmult_le_compat; try apply Rabs_pos; unfold W, Rabs; destruct (Rcase_abs (across az p)), (Rcase_abs (q_off q)); lra.
  - set (Y := if Rle_dec 0 (q_off q) then q_off q + q_w q / 2 else q_off q - q_w q / 2).
    set (p := mkVec (D * cos az - Y * sin az) (D * sin az + Y * cos az) (gap / 2)).
    assert (A1 : along az p = D) by (unfold along, p; cbn [vx vy]; transitivity (D * (cos az * cos az + sin az * sin az)); [ring|rewrite T; ring]).
    assert (A2 : across az p = Y) by (unfold across, p; cbn [vx vy]; transitivity (Y * (cos az * cos az + sin az * sin az)); [ring|rewrite T; ring]).
    exists p. split.
    + unfold in_volume. rewrite A1, A2. cbn [vz p]. rewrite Rabs_pos_eq by lra. unfold D, Y. destruct (Rle_dec 0 (q_off q)); repeat split; lra.
    + rewrite N, A1, A2. f_equal. f_equal. unfold Y, W, Rabs. destruct (Rle_dec 0 (q_off q)), (Rcase_abs (q_off q)); try lra; ring.
Qed.

(** ** the angles *)
Lemma ray_along : forall f0 al rho, along f0 (at_angle (PI / 2 - f0 + al) rho) = rho * cos al.
Proof.
  intros. unfold along, at_angle. cbn [vx vy]. replace (PI / 2 - f0 + al) with (PI / 2 - (f0 - al)) by ring. rewrite sin_shift, cos_shift, cos_minus, sin_minus.
  pose proof (cs1 f0) as T. transitivity (rho * cos al * (cos f0 * cos f0 + sin f0 * sin f0)); [ring|rewrite T; ring].
Qed.
Lemma ray_across : forall f0 al rho, across f0 (at_angle (PI / 2 - f0 + al) rho) = - (rho * sin al).
Proof.
  intros. unfold across, at_angle. cbn [vx vy]. replace (PI / 2 - f0 + al) with (PI / 2 - (f0 - al)) by ring. rewrite sin_shift, cos_shift, cos_minus, sin_minus.
  pose proof (cs1 f0) as T. transitivity (- (rho * sin al * (cos f0 * cos f0 + sin f0 * sin f0))); [ring|rewrite T; ring].
Qed.
Lemma cos_atan_pos : forall x, 0 < cos (atan x).
Proof. intros. pose proof (atan_bound x). apply cos_gt_0; lra. Qed.
Lemma sin_atan : forall x, sin (atan x) = x * cos (atan x).
Proof. intros. pose proof (cos_atan_pos x). rewrite <- (tan_atan x) at 2. unfold tan. field. lra. Qed.
Lemma edge : forall f0 k D, 0 < D -> exists rho, 0 < rho /\ along f0 (at_angle (PI / 2 - f0 + atan (k / D)) rho) = D /\
  across f0 (at_angle (PI / 2 - f0 + atan (k / D)) rho) = - k.
Proof.
  intros f0 k D H. pose proof (cos_atan_pos (k / D)). exists (D / cos (atan (k / D))). split; [apply Rdiv_lt_0_compat; lra|].
  rewrite ray_along, ray_across, sin_atan. split; field; lra.
Qed.
Lemma inner_angles : forall type rIn rOut half gap rad h i (sensitive : bool), let z := zp_made type rIn rOut half gap rad h in
  match layer_args h i with
  | Some a => let q := part_of a sensitive in 0 < q_d q -> exists f g,
      zp_getStartInnerPhi z i sensitive = Ok f /\ zp_getEndInnerPhi z i sensitive = Ok g /\
      (exists rho, 0 < rho /\ along (za_phi0 a) (at_angle f rho) = q_d q /\ across (za_phi0 a) (at_angle f rho) = q_off q + q_w q / 2) /\
      (exists rho, 0 < rho /\ along (za_phi0 a) (at_angle g rho) = q_d q /\ across (za_phi0 a) (at_angle g rho) = q_off q - q_w q / 2)
  | None => (exists e, zp_getStartInnerPhi z i sensitive = Throw (EOutOfRange e)) /\ (exists e, zp_getEndInnerPhi z i sensitive = Throw (EOutOfRange e))
  end.
Proof.
  intros. unfold zp_getStartInnerPhi, zp_getEndInnerPhi, z. rewrite !part_at'. destruct (layer_args h i) as [a|]; [|split; eexists; reflexivity].
  intros Hd. cbn [rmap]. set (q := part_of a sensitive) in *. eexists. eexists. split; [reflexivity|]. split; [reflexivity|]. unfold startInnerPhi, endInnerPhi, layer_of. cbn [zl_phi zl_w zl_off zl_d]. fold q.
  split.
  - destruct (edge (za_phi0 a) (- q_w q / 2 - q_off q) (q_d q) Hd) as (rho & R & A & B). exists rho. split; [exact R|]. split; [exact A|]. rewrite B. lra.
  - destruct (edge (za_phi0 a) (q_w q / 2 - q_off q) (q_d q) Hd) as (rho & R & A & B). exists rho. split; [exact R|]. split; [exact A|]. rewrite B. lra.
Qed.
(** the flag is inverted: the sensitive part is answered for false, the ladder for true *)
Lemma outer_angles : forall type rIn rOut half gap rad h i (sensitive : bool), let z := zp_made type rIn rOut half gap rad h in
  match layer_args h i with
  | Some a => let q := part_of a (negb sensitive) in 0 < q_d q -> 0 <= q_t q -> exists f g,
      zp_getStartOuterPhi z i sensitive = Ok f /\ zp_getEndOuterPhi z i sensitive = Ok g /\
      (exists rho, 0 < rho /\ along (za_phi0 a) (at_angle f rho) = q_d q + q_t q /\ across (za_phi0 a) (at_angle f rho) = q_off q + q_w q / 2) /\
      (exists rho, 0 < rho /\ along (za_phi0 a) (at_angle g rho) = q_d q + q_t q /\ across (za_phi0 a) (at_angle g rho) = q_off q - q_w q / 2)
  | None => (exists e, zp_getStartOuterPhi z i sensitive = Throw (EOutOfRange e)) /\ (exists e, zp_getEndOuterPhi z i sensitive = Throw (EOutOfRange e))
  end.
Proof.
  intros. unfold zp_getStartOuterPhi, zp_getEndOuterPhi, z. rewrite !part_at_inv. destruct (layer_args h i) as [a|]; [|split; eexists; reflexivity].
  intros Hd Ht. cbn [rmap]. set (q := part_of a (negb sensitive)) in *. eexists. eexists. split; [reflexivity|]. split; [reflexivity|]. unfold startOuterPhi, endOuterPhi, layer_of. cbn [zl_phi zl_w zl_off zl_d zl_t]. fold q.
  split.
  - destruct (edge (za_phi0 a) (- q_w q / 2 - q_off q) (q_d q + q_t q)) as (rho & R & A & B); [lra|]. exists rho.
    replace (PI / 2 - za_phi0 a - atan ((q_w q / 2 + q_off q) / (q_d q + q_t q))) with (PI / 2 - za_phi0 a + atan ((- q_w q / 2 - q_off q) / (q_d q + q_t q))).
    + split; [exact R|]. split; [exact A|]. rewrite B. lra.
    + replace ((- q_w q / 2 - q_off q) / (q_d q + q_t q)) with (- ((q_w q / 2 + q_off q) / (q_d q + q_t q))) by (field; lra). rewrite atan_opp. ring.
  - destruct (edge (za_phi0 a) (q_w q / 2 - q_off q) (q_d q + q_t q)) as (rho & R & A & B); [lra|]. exists rho. split; [exact R|]. split; [exact A|]. rewrite B. lra.
Qed.

(** ** the thickness under an angle *)
Lemma tan_between : forall f x, - PI / 2 < f < PI / 2 -> (f <= atan x <-> tan f <= x).
Proof.
  intros f x H. split; intros L.
  - rewrite <- (tan_atan x). destruct L as [L|L]; [|rewrite L; lra]. left. apply tan_increasing; pose proof (atan_bound x); lra.
  - rewrite <- (atan_tan f) by lra. destruct L as [L|L]; [left; now apply atan_increasing|rewrite L; lra].
Qed.
Lemma tan_between' : forall f x, - PI / 2 < f < PI / 2 -> (atan x <= f <-> x <= tan f).
Proof.
  intros f x H. split; intros L.
  - rewrite <- (tan_atan x). destruct L as [L|L]; [|rewrite <- L; lra]. left. apply tan_increasing; pose proof (atan_bound x); lra.
  - rewrite <- (atan_tan f) by lra. destruct L as [L|L]; [left; now apply atan_increasing|rewrite L; lra].
Qed.
(** the section of the plate on the line at angle [al] from the normal *)
Lemma on_line : forall q f0 al rho, in_section q f0 (at_angle (PI / 2 - f0 + al) rho) <->
  q_d q <= rho * cos al <= q_d q + q_t q /\ - q_w q / 2 - q_off q <= rho * sin al <= q_w q / 2 - q_off q.
Proof. intros. unfold in_section. rewrite ray_along, ray_across. split; intros; lra. Qed.
Lemma straight_path : forall q f0 al, part_ok q -> covers_normal q -> - PI / 2 < al < PI / 2 ->
  (- q_w q / 2 - q_off q) <= (q_d q + q_t q) * tan al <= q_w q / 2 - q_off q ->
  path_length q f0 (PI / 2 - f0 + al) (q_t q / cos al).
Proof.
  intros q f0 al (Q1 & Q2 & Q3 & Q4) HC Ha HT. assert (C : 0 < cos al) by (apply cos_gt_0; lra).
  assert (IC : 0 < / cos al) by (now apply Rinv_0_lt_compat). exists (q_d q / cos al), ((q_d q + q_t q) / cos al).
  assert (K1 : q_d q / cos al * cos al = q_d q) by (field; lra). assert (K2 : (q_d q + q_t q) / cos al * cos al = q_d q + q_t q) by (field; lra).
  split; [unfold Rdiv; apply Rmult_le_compat_r; lra|]. split; [field; lra|].
  intros rho Hr. rewrite on_line. split.
  - intros ((A & B) & _). split; apply Rmult_le_reg_r with (cos al); lra.
  - intros (A & B). assert (A1 : q_d q <= rho * cos al) by (rewrite <- K1; apply Rmult_le_compat_r; lra).
    assert (B1 : rho * cos al <= q_d q + q_t q) by (rewrite <- K2; apply Rmult_le_compat_r; lra). split; [lra|].
    assert (S : rho * sin al = (rho * cos al) * tan al) by (unfold tan; field; lra). rewrite S.
    set (x := rho * cos al) in *. set (D := q_d q + q_t q) in *. unfold covers_normal, Rabs in HC.
    destruct (Rle_lt_dec 0 (tan al)).
    + assert (x * tan al <= D * tan al) by (apply Rmult_le_compat_r; lra). assert (0 <= x * tan al) by (apply Rmult_le_pos; lra).
      destruct (Rcase_abs (q_off q)); lra.
    + assert (x * - tan al <= D * - tan al) by (apply Rmult_le_compat_r; lra). assert (0 <= x * - tan al) by (apply Rmult_le_pos; lra).
      destruct (Rcase_abs (q_off q)); lra.
Qed.
Lemma corner_path : forall q f0 al, part_ok q -> covers_normal q -> 0 < al < PI / 2 ->
  q_d q * tan al <= q_w q / 2 - q_off q <= (q_d q + q_t q) * tan al ->
  path_length q f0 (PI / 2 - f0 + al) ((q_w q / 2 - q_off q - q_d q * tan al) / sin al).
Proof.
  intros q f0 al (Q1 & Q2 & Q3 & Q4) HC Ha HT. assert (C : 0 < cos al) by (apply cos_gt_0; lra). assert (S : 0 < sin al) by (apply sin_gt_0; lra).
  set (xr := q_w q / 2 - q_off q) in *. exists (q_d q / cos al), (xr / sin al).
  assert (K1 : q_d q / cos al * cos al = q_d q) by (field; lra). assert (K2 : xr / sin al * sin al = xr) by (field; lra).
  assert (T : tan al * cos al = sin al) by (unfold tan; field; lra). assert (TP : 0 < tan al) by (apply tan_gt_0; lra).
  split.
  - apply Rmult_le_reg_r with (sin al); [lra|]. rewrite K2. replace (q_d q / cos al * sin al) with (q_d q * tan al) by (unfold tan; field; lra). lra.
  - split; [unfold tan; field; lra|]. intros rho Hr. rewrite on_line. fold xr. split.
    + intros ((A & B) & D & F). split; [apply Rmult_le_reg_r with (cos al); lra|apply Rmult_le_reg_r with (sin al); lra].
    + intros (A & B). assert (A1 : q_d q <= rho * cos al) by (rewrite <- K1; apply Rmult_le_compat_r; lra).
      assert (B1 : rho * sin al <= xr) by (rewrite <- K2; apply Rmult_le_compat_r; lra).
      assert (0 <= rho * sin al) by (apply Rmult_le_pos; lra). unfold covers_normal, Rabs in HC.
      split; [split; [exact A1|]|destruct (Rcase_abs (q_off q)); lra].
      apply Rmult_le_reg_r with (tan al); [lra|]. replace (rho * cos al * tan al) with (rho * sin al) by (rewrite <- T; ring). lra.
Qed.
Lemma left_corner_path : forall q f0 al, part_ok q -> covers_normal q -> - PI / 2 < al < 0 ->
  (q_d q + q_t q) * tan al <= - q_w q / 2 - q_off q <= q_d q * tan al -> exists len, path_length q f0 (PI / 2 - f0 + al) len.
Proof.
  intros q f0 al (Q1 & Q2 & Q3 & Q4) HC Ha HT. assert (C : 0 < cos al) by (apply cos_gt_0; lra).
  assert (S : 0 < - sin al) by (rewrite <- sin_neg; apply sin_gt_0; lra).
  set (xl := - q_w q / 2 - q_off q) in *. exists (xl / sin al - q_d q / cos al), (q_d q / cos al), (xl / sin al).
  assert (K1 : q_d q / cos al * cos al = q_d q) by (field; lra). assert (K2 : xl / sin al * - sin al = - xl) by (field; lra).
  assert (T : tan al * cos al = sin al) by (unfold tan; field; lra).
  assert (TP : 0 < - tan al) by (rewrite <- tan_neg; apply tan_gt_0; lra).
  split.
  - apply Rmult_le_reg_r with (- sin al); [lra|]. rewrite K2. replace (q_d q / cos al * - sin al) with (- (q_d q * tan al)) by (unfold tan; field; lra). lra.
  - split; [reflexivity|]. intros rho Hr. rewrite on_line. fold xl. split.
    + intros ((A & B) & D & F). split; [apply Rmult_le_reg_r with (cos al); lra|apply Rmult_le_reg_r with (- sin al); lra].
    + intros (A & B). assert (A1 : q_d q <= rho * cos al) by (rewrite <- K1; apply Rmult_le_compat_r; lra).
      assert (B1 : rho * - sin al <= - xl) by (rewrite <- K2; apply Rmult_le_compat_r; lra).
      assert (0 <= rho * - sin al) by (apply Rmult_le_pos; lra). unfold covers_normal, Rabs in HC.
      split; [split; [exact A1|]|destruct (Rcase_abs (q_off q)); lra].
      apply Rmult_le_reg_r with (- tan al); [lra|]. replace (rho * cos al * - tan al) with (rho * - sin al) by (rewrite <- T; ring). lra.
Qed.
Lemma missed : forall q f0 al, part_ok q -> covers_normal q -> - PI <= al <= PI ->
  al < atan ((- q_w q / 2 - q_off q) / q_d q) \/ atan ((q_w q / 2 - q_off q) / q_d q) < al ->
  forall rho, 0 <= rho -> ~ in_section q f0 (at_angle (PI / 2 - f0 + al) rho).
Proof.
  intros q f0 al (Q1 & Q2 & Q3 & Q4) HC Ha HT rho Hr H. apply on_line in H. destruct H as ((A & _) & D & F).
  destruct (Rle_lt_dec (cos al) 0) as [C|C].
  - assert (0 <= rho * - cos al) by (apply Rmult_le_pos; lra). lra.
  - assert (Hal : - PI / 2 < al < PI / 2).
    { split.
      - destruct (Rlt_le_dec (- PI / 2) al); [assumption|exfalso]. assert (cos (- al) <= 0) by (apply cos_le_0; lra). rewrite cos_neg in *. lra.
      - destruct (Rlt_le_dec al (PI / 2)); [assumption|exfalso]. assert (cos al <= 0) by (apply cos_le_0; lra). lra. }
    assert (S : rho * sin al = (rho * cos al) * tan al) by (unfold tan; field; lra). rewrite S in D, F. set (x := rho * cos al) in *.
    unfold covers_normal, Rabs in HC. destruct HT as [HT|HT].
    + assert (T : tan al < (- q_w q / 2 - q_off q) / q_d q).
      { destruct (Rlt_le_dec (tan al) ((- q_w q / 2 - q_off q) / q_d q)); [assumption|]. exfalso. assert (atan ((- q_w q / 2 - q_off q) / q_d q) <= al) by (apply tan_between'; assumption). lra. }
      assert (T2 : q_d q * tan al < - q_w q / 2 - q_off q).
      { replace (- q_w q / 2 - q_off q) with (q_d q * ((- q_w q / 2 - q_off q) / q_d q)) by (field; lra). apply Rmult_lt_compat_l; assumption. }
      assert (TN : tan al < 0).
      { destruct (Rlt_le_dec (tan al) 0); [assumption|]. assert (0 <= q_d q * tan al) by (apply Rmult_le_pos; lra). destruct (Rcase_abs (q_off q)); lra. }
      assert (q_d q * - tan al <= x * - tan al) by (apply Rmult_le_compat_r; lra). lra.
    + assert (T : (q_w q / 2 - q_off q) / q_d q < tan al).
      { destruct (Rlt_le_dec ((q_w q / 2 - q_off q) / q_d q) (tan al)); [assumption|]. exfalso. assert (al <= atan ((q_w q / 2 - q_off q) / q_d q)) by (apply tan_between; assumption). lra. }
      assert (T2 : q_w q / 2 - q_off q < q_d q * tan al).
      { replace (q_w q / 2 - q_off q) with (q_d q * ((q_w q / 2 - q_off q) / q_d q)) by (field; lra). apply Rmult_lt_compat_l; assumption. }
      assert (TN : 0 < tan al).
      { destruct (Rlt_le_dec 0 (tan al)); [assumption|]. assert (0 <= q_d q * - tan al) by (apply Rmult_le_pos; lra). destruct (Rcase_abs (q_off q)); lra. }
      assert (q_d q * tan al <= x * tan al) by (apply Rmult_le_compat_r; lra). lra.
Qed.

(** the layer whose first ladder is on the y axis, ladder and sensitive part being the same *)
Lemma thickness_top : forall type rIn rOut half gap rad h i sensitive a f, let z := zp_made type rIn rOut half gap rad h in
  layer_args h i = Some a -> za_phi0 a = PI / 2 -> za_lad a = za_sen a -> part_ok (za_lad a) -> covers_normal (za_lad a) -> - PI <= f <= PI ->
  exists so x, zp_getStartOuterPhi z i sensitive = Ok so /\ zp_getThicknessForPhi z i f sensitive = Ok x /\
  (x = -1 /\ (forall rho, 0 <= rho -> ~ in_section (za_lad a) (PI / 2) (at_angle f rho)) \/
   exists len, path_length (za_lad a) (PI / 2) f len /\ (so <= f /\ x = len \/ f < so /\ x < 0)).
Proof.
  intros type rIn rOut half gap rad h i sensitive a f z E E0 EQ HQ HC Hf.
  unfold zp_getThicknessForPhi, zp_getStartInnerPhi, zp_getEndInnerPhi, zp_getStartOuterPhi, zp_getEndOuterPhi, z. rewrite part_at', part_at_inv, E. cbn [rbind rmap].
  assert (P1 : part_of a sensitive = za_lad a) by (destruct sensitive; cbn; congruence).
  assert (P2 : part_of a (negb sensitive) = za_lad a) by (destruct sensitive; cbn; congruence). rewrite P1, P2. set (q := za_lad a) in *.
  unfold startInnerPhi, endInnerPhi, startOuterPhi, endOuterPhi, layer_of. cbn [zl_phi zl_w zl_off zl_d zl_t]. rewrite E0.
  replace (PI / 2 - PI / 2) with 0 by ring. rewrite !Rplus_0_l.
  replace (0 - atan ((q_w q / 2 + q_off q) / (q_d q + q_t q))) with (atan ((- q_w q / 2 - q_off q) / (q_d q + q_t q))).
  2:{ destruct HQ as (? & ? & _). replace ((- q_w q / 2 - q_off q) / (q_d q + q_t q)) with (- ((q_w q / 2 + q_off q) / (q_d q + q_t q))) by (field; lra). rewrite atan_opp. ring. }
  eexists. destruct (Rltb_spec f (atan ((- q_w q / 2 - q_off q) / q_d q))) as [L1|L1]; cbn [orb].
  { eexists. split; [reflexivity|]. split; [reflexivity|]. left. split; [reflexivity|]. intros rho Hr.
    pose proof (missed q (PI / 2) f HQ HC Hf (or_introl L1) rho Hr) as M. replace (PI / 2 - PI / 2 + f) with f in M by ring. exact M. }
  destruct (Rltb_spec (atan ((q_w q / 2 - q_off q) / q_d q)) f) as [L2|L2].
  { eexists. split; [reflexivity|]. split; [reflexivity|]. left. split; [reflexivity|]. intros rho Hr.
    pose proof (missed q (PI / 2) f HQ HC Hf (or_intror L2) rho Hr) as M. replace (PI / 2 - PI / 2 + f) with f in M by ring. exact M. }
  pose proof HQ as (Q1 & Q2 & Q3 & Q4).
  assert (Hal : - PI / 2 < f < PI / 2).
  { pose proof (atan_bound ((- q_w q / 2 - q_off q) / q_d q)). pose proof (atan_bound ((q_w q / 2 - q_off q) / q_d q)). lra. }
  pose proof L1 as L1'. pose proof L2 as L2'.
  apply tan_between' in L1; [|assumption]. apply tan_between in L2; [|assumption].
  assert (V : forall x D, 0 < D -> D * (x / D) = x) by (intros; field; lra).
  assert (T1 : - q_w q / 2 - q_off q <= q_d q * tan f) by (rewrite <- (V (- q_w q / 2 - q_off q) (q_d q) Q1); apply Rmult_le_compat_l; lra).
  assert (T2 : q_d q * tan f <= q_w q / 2 - q_off q) by (rewrite <- (V (q_w q / 2 - q_off q) (q_d q) Q1); apply Rmult_le_compat_l; lra).
  assert (HD : 0 < q_d q + q_t q) by lra.
  assert (IO : forall x y, 0 < x -> - q_w q / 2 - q_off q <= x * y -> (- q_w q / 2 - q_off q) / x <= y).
  { intros x y Hx Hxy. apply Rmult_le_reg_l with x; [assumption|]. rewrite V by assumption. exact Hxy. }
  destruct (Rleb_spec (atan ((- q_w q / 2 - q_off q) / (q_d q + q_t q))) f) as [L3|L3]; cbn [andb].
  - pose proof L3 as L3'. apply tan_between' in L3; [|assumption].
    assert (T3 : - q_w q / 2 - q_off q <= (q_d q + q_t q) * tan f) by (rewrite <- (V (- q_w q / 2 - q_off q) _ HD); apply Rmult_le_compat_l; lra).
    destruct (Rleb_spec f (atan ((q_w q / 2 - q_off q) / (q_d q + q_t q)))) as [L4|L4].
    + apply tan_between in L4; [|assumption].
      assert (T4 : (q_d q + q_t q) * tan f <= q_w q / 2 - q_off q) by (rewrite <- (V (q_w q / 2 - q_off q) _ HD); apply Rmult_le_compat_l; lra).
      eexists. split; [reflexivity|]. split; [reflexivity|]. right. exists (q_t q / cos f). split; [|left; auto].
      pose proof (straight_path q (PI / 2) f HQ HC Hal (conj T3 T4)) as SP. replace (PI / 2 - PI / 2 + f) with f in SP by ring. exact SP.
    + apply Rlt_not_le in L4. assert (T4 : q_w q / 2 - q_off q <= (q_d q + q_t q) * tan f).
      { destruct (Rle_lt_dec (q_w q / 2 - q_off q) ((q_d q + q_t q) * tan f)); [assumption|]. exfalso. apply L4. apply tan_between; [assumption|].
        apply Rmult_le_reg_l with (q_d q + q_t q); [assumption|]. rewrite V by assumption. lra. }
      assert (FP : 0 < f).
      { destruct (Rlt_le_dec 0 f); [assumption|]. exfalso. apply L4. apply Rle_trans with 0; [assumption|]. rewrite <- atan_0.
        assert (X : 0 <= (q_w q / 2 - q_off q) / (q_d q + q_t q)).
        { apply Rmult_le_reg_l with (q_d q + q_t q); [assumption|]. rewrite V by assumption. unfold covers_normal, Rabs in HC. destruct (Rcase_abs (q_off q)); lra. }
        destruct X as [X|X]; [left; now apply atan_increasing|rewrite <- X; lra]. }
      eexists. split; [reflexivity|]. split; [reflexivity|]. right. eexists. split; [|left; split; [exact L3'|reflexivity]].
      pose proof (corner_path q (PI / 2) f HQ HC (conj FP (proj2 Hal)) (conj T2 T4)) as SP. replace (PI / 2 - PI / 2 + f) with f in SP by ring. exact SP.
  - apply Rlt_not_le in L3. assert (T3 : (q_d q + q_t q) * tan f <= - q_w q / 2 - q_off q).
    { destruct (Rle_lt_dec ((q_d q + q_t q) * tan f) (- q_w q / 2 - q_off q)); [assumption|]. exfalso. apply L3. apply tan_between'; [assumption|]. apply IO; lra. }
    assert (FN : f < 0).
    { destruct (Rlt_le_dec f 0); [assumption|]. exfalso. apply L3. apply Rle_trans with 0; [|assumption]. rewrite <- atan_0.
      assert (X : (- q_w q / 2 - q_off q) / (q_d q + q_t q) <= 0).
      { apply Rmult_le_reg_l with (q_d q + q_t q); [assumption|]. rewrite V by assumption. unfold covers_normal, Rabs in HC. destruct (Rcase_abs (q_off q)); lra. }
      destruct X as [X|X]; [left; now apply atan_increasing|rewrite X; lra]. }
    eexists. split; [reflexivity|]. split; [reflexivity|]. right.
    destruct (left_corner_path q (PI / 2) f HQ HC (conj (proj1 Hal) FN) (conj T3 T1)) as [len SP]. replace (PI / 2 - PI / 2 + f) with f in SP by ring.
    exists len. split; [exact SP|]. right. split; [apply Rnot_le_lt; exact L3|].
    assert (S : 0 < - sin f) by (rewrite <- sin_neg; apply sin_gt_0; lra). assert (TP : 0 < - tan f) by (rewrite <- tan_neg; apply tan_gt_0; lra).
    assert (NP : 0 < q_w q / 2 - q_off q - q_d q * tan f).
    { assert (0 < q_d q * - tan f) by (apply Rmult_lt_0_compat; lra). unfold covers_normal, Rabs in HC. destruct (Rcase_abs (q_off q)); lra. }
    replace ((q_w q / 2 - q_off q - q_d q * tan f) / sin f) with (- ((q_w q / 2 - q_off q - q_d q * tan f) / - sin f)) by (field; lra).
    assert (0 < (q_w q / 2 - q_off q - q_d q * tan f) / - sin f) by (apply Rdiv_lt_0_compat; lra). lra.
Qed.
(** any other first angle: even straight through the ladder the answer is wrong *)
Lemma thickness_other : forall type rIn rOut half gap rad h i sensitive a, let z := zp_made type rIn rOut half gap rad h in
  layer_args h i = Some a -> za_lad a = za_sen a -> part_ok (za_lad a) -> covers_normal (za_lad a) -> sin (za_phi0 a) <> 0 ->
  path_length (za_lad a) (za_phi0 a) (PI / 2 - za_phi0 a) (q_t (za_lad a)) /\
  zp_getThicknessForPhi z i (PI / 2 - za_phi0 a) sensitive = Ok (q_t (za_lad a) / sin (za_phi0 a)).
Proof.
  intros type rIn rOut half gap rad h i sensitive a z E EQ HQ HC _. pose proof HQ as (Q1 & Q2 & Q3 & Q4).
  assert (P1 : part_of a sensitive = za_lad a) by (destruct sensitive; cbn; congruence).
  assert (P2 : part_of a (negb sensitive) = za_lad a) by (destruct sensitive; cbn; congruence). set (q := za_lad a) in *. split.
  - pose proof PI_RGT_0. pose proof (straight_path q (za_phi0 a) 0 HQ HC ltac:(lra)) as SP. rewrite tan_0, cos_0, Rmult_0_r, Rplus_0_r in SP.
    replace (q_t q / 1) with (q_t q) in SP by field. apply SP. unfold covers_normal, Rabs in HC. destruct (Rcase_abs (q_off q)); lra.
  - unfold zp_getThicknessForPhi, zp_getStartInnerPhi, zp_getEndInnerPhi, zp_getStartOuterPhi, zp_getEndOuterPhi, z. rewrite part_at', part_at_inv, E. cbn [rbind rmap].
    rewrite P1, P2. unfold startInnerPhi, endInnerPhi, startOuterPhi, endOuterPhi, layer_of. cbn [zl_phi zl_w zl_off zl_d zl_t].
    assert (AL : forall x D, 0 < D -> 0 <= x -> 0 <= atan (x / D)).
    { intros x D HD Hx. assert (X : 0 <= x / D) by (apply Rmult_le_reg_l with D; [assumption|]; replace (D * (x / D)) with x by (field; lra); lra).
      rewrite <- atan_0. destruct X as [X|X]; [left; now apply atan_increasing|rewrite <- X; lra]. }
    assert (HL : 0 <= q_w q / 2 + q_off q) by (unfold covers_normal, Rabs in HC; destruct (Rcase_abs (q_off q)); lra).
    assert (HR : 0 <= q_w q / 2 - q_off q) by (unfold covers_normal, Rabs in HC; destruct (Rcase_abs (q_off q)); lra).
    assert (A1 : atan ((- q_w q / 2 - q_off q) / q_d q) <= 0).
    { replace ((- q_w q / 2 - q_off q) / q_d q) with (- ((q_w q / 2 + q_off q) / q_d q)) by (field; lra). rewrite atan_opp. pose proof (AL _ _ Q1 HL). lra. }
    pose proof (AL _ _ Q1 HR) as A2. pose proof (AL _ (q_d q + q_t q) ltac:(lra) HL) as A3. pose proof (AL _ (q_d q + q_t q) ltac:(lra) HR) as A4.
    set (b1 := atan ((- q_w q / 2 - q_off q) / q_d q)) in *. set (b2 := atan ((q_w q / 2 - q_off q) / q_d q)) in *.
    set (b3 := atan ((q_w q / 2 + q_off q) / (q_d q + q_t q))) in *. set (b4 := atan ((q_w q / 2 - q_off q) / (q_d q + q_t q))) in *.
    destruct (Rltb_spec (PI / 2 - za_phi0 a) (PI / 2 - za_phi0 a + b1)); [lra|]. destruct (Rltb_spec (PI / 2 - za_phi0 a + b2) (PI / 2 - za_phi0 a)); [lra|]. cbn [orb].
    destruct (Rleb_spec (PI / 2 - za_phi0 a - b3) (PI / 2 - za_phi0 a)); [|lra]. destruct (Rleb_spec (PI / 2 - za_phi0 a) (PI / 2 - za_phi0 a + b4)); [|lra]. cbn [andb].
    rewrite cos_shift. reflexivity.
Qed.
