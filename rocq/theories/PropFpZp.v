(** C95: the largest radius of a layer of planar ladders, and the checks with which point look-ups skip layers, in the arithmetic
    of the machine. *)
From Coq Require Import ZArith Reals Lia Lra List.
From Verif Require Import Base RBase VecModel NumSpec ZpModel ZpSpec FpZpModel FpZpSpec FpZpProofs FpZpProofs2.
Import ListNotations.
Open Scope R_scope.

(** The radius reported differs from the true one by at most one part in five million; for a layer that does not exist there is an exception. *)
Theorem C95_max_radius_near : forall type rIn rOut half gap rad h i sensitive m,
  match layer_args h i with
  | Some a => part_ok (part_of a sensitive) -> usual_size gap (part_of a sensitive) ->
      exists r R, fzp_getMaxRadius (zp_made type rIn rOut half gap rad h) i sensitive = Ok r /\
      largest_distance gap (part_of a sensitive) (azimuth a m) R /\ Rabs (r - R) <= R / 5000000
  | None => exists e, fzp_getMaxRadius (zp_made type rIn rOut half gap rad h) i sensitive = Throw (EOutOfRange e)
  end.
Proof. exact near_exact. Qed.
Print Assumptions C95_max_radius_near.

(** In layers that reach out to at most 499 no point of a ladder is lost by the checks. *)
Theorem C95_points_kept : forall type rIn rOut half gap rad h i sensitive a m p R, layer_args h i = Some a ->
  part_ok (part_of a sensitive) -> usual_size gap (part_of a sensitive) -> largest_distance gap (part_of a sensitive) (azimuth a m) R -> R <= 499 ->
  in_volume gap (part_of a sensitive) (azimuth a m) p -> zp_skips (zp_made type rIn rOut half gap rad h) i sensitive p = Ok false.
Proof. exact kept. Qed.
Print Assumptions C95_points_kept.

(** And they skip such a layer for every point that is well inside of it, outside of it or beyond its ends. *)
Theorem C95_far_points_skipped : forall type rIn rOut half gap rad h i sensitive a m p R, layer_args h i = Some a ->
  part_ok (part_of a sensitive) -> usual_size gap (part_of a sensitive) -> largest_distance gap (part_of a sensitive) (azimuth a m) R -> R <= 499 ->
  axis_distance p <= q_d (part_of a sensitive) - 2 / 10000 \/ R + 3 / 10000 <= axis_distance p \/ q_len (part_of a sensitive) + gap / 2 + 2 / 10000 <= Rabs (vz p) ->
  zp_skips (zp_made type rIn rOut half gap rad h) i sensitive p = Ok true.
Proof. exact dropped. Qed.
Print Assumptions C95_far_points_skipped.

(** Without that limit it is false: some layer is skipped for a point of its only ladder, because the radius reported for it falls
    short of the true one by more than the margin of 0.0001. *)
Theorem C95_points_kept_refuted : exists type rIn rOut half rad a p, part_double (za_lad a) /\ part_double (za_sen a) /\ vec_double p /\
  forall sensitive, part_ok (part_of a sensitive) /\ usual_size 0 (part_of a sensitive) /\ in_volume 0 (part_of a sensitive) (azimuth a 0) p /\
  zp_skips (zp_made type rIn rOut half 0 rad [a]) 0 sensitive p = Ok true /\
  exists r R, fzp_getMaxRadius (zp_made type rIn rOut half 0 rad [a]) 0 sensitive = Ok r /\ largest_distance 0 (part_of a sensitive) (azimuth a 0) R /\ r + 1 / 10000 < R.
Proof.
  exists 0%Z, 0, 0, 0, 0, loose_args, loose_point. split; [apply loose_double|]. split; [apply loose_double|]. split; [apply loose_double|]. intros sensitive.
  split; [replace (part_of loose_args sensitive) with loose_part by (destruct sensitive; reflexivity); unfold part_ok, loose_part; cbn [q_d q_t q_len q_w]; lra|].
  split; [replace (part_of loose_args sensitive) with loose_part by (destruct sensitive; reflexivity); unfold usual_size, loose_part; cbn [q_d q_t q_len q_w]; lra|].
  split; [apply loose_in|]. split; [apply loose_skipped|apply loose_short].
Qed.
Print Assumptions C95_points_kept_refuted.

(** ** examples: ten ladders at distance 4, thickness 0, width 6: the layer reaches out to 5 *)
Definition small_part : zpart := mkZP 4 0 0 100 6 1.
Definition small_args : zargs := mkZA 10 0 small_part small_part.
Example small_ok : part_ok small_part /\ usual_size 2 small_part.
Proof. unfold part_ok, usual_size, small_part. cbn [q_d q_t q_len q_w]. lra. Qed.
Example small_reach : forall m, largest_distance 2 small_part (azimuth small_args m) 5.
Proof.
  intros m. assert (E : maxRadius (layer_of small_args (part_of small_args false)) = 5).
  { unfold maxRadius. cbv zeta. cbn. rewrite Rabs_R0. replace ((4 + 0) * (4 + 0) + (6 / 2 + 0) * (6 / 2 + 0)) with (5 * 5) by lra. apply sqrt_square. lra. }
  rewrite <- E. apply (largest_is 2 small_args false m); [apply small_ok|lra].
Qed.
Example small_kept : zp_skips (zp_made 0 0 0 0 2 0 [small_args]) 0 false (mkVec 4 3 50) = Ok false.
Proof.
  refine (C95_points_kept 0 0 0 0 2 0 [small_args] 0 false small_args 0 (mkVec 4 3 50) 5 eq_refl (proj1 small_ok) (proj2 small_ok) (small_reach 0) _ _); [lra|].
  unfold in_volume, azimuth, along, across, small_args, part_of, small_part. cbn [za_lad za_phi0 za_n q_d q_off q_t q_len q_w vx vy vz]. replace (0 + 0 * (2 * PI / 10)) with 0 by lra. rewrite cos_0, sin_0, Rabs_pos_eq by lra. lra.
Qed.
Example small_skipped : zp_skips (zp_made 0 0 0 0 2 0 [small_args]) 0 false (mkVec 4 3 102) = Ok true.
Proof.
  refine (C95_far_points_skipped 0 0 0 0 2 0 [small_args] 0 false small_args 0 (mkVec 4 3 102) 5 eq_refl (proj1 small_ok) (proj2 small_ok) (small_reach 0) _ _); [lra|].
  right. right. unfold small_args, part_of, small_part. cbn [za_lad q_len vz]. rewrite Rabs_pos_eq by lra. lra.
Qed.
