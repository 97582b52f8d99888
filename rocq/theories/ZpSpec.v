(** Specification vocabulary for planar ladders. *)
From Coq Require Import ZArith List Bool Reals.
From Verif Require Import Base RBase VecModel DiskSpec ZpModel.
Import ListNotations.
Open Scope R_scope.

(** The detector after the given addLayer calls. *)
Definition zp_made (type : Z) (rIn rOut half gap rad : R) (h : list zargs) : zplanar :=
  fold_left zp_addLayer h (new_zplanar type rIn rOut half gap rad).
Definition part_of (a : zargs) (sensitive : bool) : zpart := if sensitive then za_sen a else za_lad a.

(** What the interface documents.  Ladder [m] of a layer has its normal at azimuth phi0 + m*2pi/n. *)
Definition azimuth (a : zargs) (m : Z) : R := za_phi0 a + IZR m * (2 * PI / IZR (za_n a)).
(** Coordinates of a point along that normal and in the direction of increasing phi. *)
Definition along (az : R) (p : vec) : R := vx p * cos az + vy p * sin az.
Definition across (az : R) (p : vec) : R := vy p * cos az - vx p * sin az.
(** The volume of a ladder or of its sensitive part: a plate of the given thickness starting at the
    given distance, shifted by the offset, on both sides of the gap. *)
Definition in_volume (gap : R) (q : zpart) (az : R) (p : vec) : Prop :=
  q_d q <= along az p <= q_d q + q_t q /\
  q_off q - q_w q / 2 <= across az p <= q_off q + q_w q / 2 /\
  gap / 2 <= Rabs (vz p) <= gap / 2 + q_len q.
(** On the surface of the volume: one of the six inequalities is an equality. *)
Definition on_surface (gap : R) (q : zpart) (az : R) (p : vec) : Prop :=
  in_volume gap q az p /\
  (along az p = q_d q \/ along az p = q_d q + q_t q \/
   across az p = q_off q - q_w q / 2 \/ across az p = q_off q + q_w q / 2 \/
   Rabs (vz p) = gap / 2 \/ Rabs (vz p) = gap / 2 + q_len q).
Definition vdist (p q : vec) : R :=
  sqrt ((vx q - vx p) * (vx q - vx p) + (vy q - vy p) * (vy q - vy p) + (vz q - vz p) * (vz q - vz p)).

(** The shell, if there is one, limits the accepted z range. *)
Definition within_shell (half gap : R) (p : vec) : Prop :=
  1 / 1000 < Rabs half -> gap / 2 <= Rabs (vz p) <= half + gap / 2.
(** Sensible numbers. *)
Definition part_ok (q : zpart) : Prop := 0 < q_d q /\ 0 <= q_t q /\ 0 <= q_len q /\ 0 <= q_w q.
(** The plate covers the foot of its normal. *)
Definition covers_normal (q : zpart) : Prop := Rabs (q_off q) <= q_w q / 2.
Definition args_ok (a : zargs) : Prop := 0 <= za_phi0 a <= 2 * PI /\ (1 <= za_n a <= 10000)%Z.
(** The half plane x = 0, y < 0, where the code gets the angle of a point wrong (and its edge). *)
Definition below_origin (p : vec) : Prop := vx p = 0 /\ vy p <= 0.

(** The azimuth of the point differs by at most [delta] from [az]. *)
Definition azimuth_within (p : vec) (az delta : R) : Prop :=
  exists rho a, 0 < rho /\ vx p = rho * cos a /\ vy p = rho * sin a /\ Rabs (a - az) <= delta.
(** Ladder [m] of layer [a] has its normal within one ladder pitch of the azimuth of the point. *)
Definition looked_at (h : list zargs) (p : vec) (a : zargs) (m : Z) : Prop :=
  In a h /\ (0 <= m < za_n a)%Z /\ azimuth_within p (azimuth a m) (2 * PI / IZR (za_n a)).
(** Points on the straight line from [p] in direction [v]. *)
Definition on_ray (p v q : vec) : Prop :=
  exists t, 0 <= t /\ vx q = vx p + t * vx v /\ vy q = vy p + t * vy v /\ vz q = vz p + t * vz v.
(** Ways in which a straight line in direction [v] can meet the surface of a ladder in the point [x]:
    through one of its two broad faces or its two long edges on the side z >= 0, or through an end face
    on either side, and not along that face. *)
Definition crossed (gap : R) (q : zpart) (az : R) (v x : vec) : Prop :=
  in_volume gap q az x /\
  (0 <= vz x /\ along az v <> 0 /\ (along az x = q_d q \/ along az x = q_d q + q_t q) \/
   0 <= vz x /\ across az v <> 0 /\ (across az x = q_off q - q_w q / 2 \/ across az x = q_off q + q_w q / 2) \/
   vz v <> 0 /\ (Rabs (vz x) = gap / 2 \/ Rabs (vz x) = gap / 2 + q_len q)).

(** What was given for layer [i]. *)
Definition layer_args (h : list zargs) (i : Z) : option zargs :=
  if (i <? 0)%Z then None else nth_error h (Z.to_nat i).
(** A look-up answers with a field of those arguments, or throws std::out_of_range. *)
Definition answers_zp {A} (h : list zargs) (i : Z) (r : result A) (f : zargs -> A) : Prop :=
  match layer_args h i with Some a => r = Ok (f a) | None => exists e, r = Throw (EOutOfRange e) end.
(** The angles of the layer interface are measured from the y axis towards the x axis.  This is the
    point at that angle and distance from the beam axis. *)
Definition at_angle (f rho : R) : vec := mkVec (rho * sin f) (rho * cos f) 0.
(** The cross section of a plate. *)
Definition in_section (q : zpart) (az : R) (p : vec) : Prop :=
  q_d q <= along az p <= q_d q + q_t q /\ q_off q - q_w q / 2 <= across az p <= q_off q + q_w q / 2.
(** A straight line from the beam axis at angle [f] is inside the plate over the length [len]. *)
Definition path_length (q : zpart) (az f len : R) : Prop :=
  exists r1 r2, r1 <= r2 /\ len = r2 - r1 /\ forall rho, 0 <= rho -> (in_section q az (at_angle f rho) <-> r1 <= rho <= r2).
