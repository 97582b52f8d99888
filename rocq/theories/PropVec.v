(** C23: vectors. *)
From Coq Require Import ZArith List String Bool Reals Lra Lia.
From Verif Require Import Base RBase Trig VecModel VecProofs.
Import ListNotations.
Open Scope R_scope.

Example a_vector : let v := mkVec 3 4 12 in v <> vzero /\ vr2 v = 169 /\ vtrans2 v = 25.
Proof. cbn. split; [intros E; inversion E; lra|]. unfold vr2, vtrans2; cbn. lra. Qed.

(** The cylindrical constructor inverts the accessors ... *)
Theorem C23_cylindrical_inverse : forall v, vcylindrical (vrho v) (vphi v) (vz v) = v.
Proof. exact cyl_of_accessors. Qed.
Print Assumptions C23_cylindrical_inverse.

(** ... and the accessors invert it. *)
Theorem C23_cylindrical_accessors : forall rho phi z, 0 <= rho ->
  vrho (vcylindrical rho phi z) = rho /\ vz (vcylindrical rho phi z) = z /\
  (0 < rho -> - PI < phi <= PI -> vphi (vcylindrical rho phi z) = phi).
Proof. exact accessors_of_cyl. Qed.
Print Assumptions C23_cylindrical_accessors.

(** Range of phi. *)
Theorem C23_phi_range : forall v, - PI < vphi v <= PI.
Proof. exact phi_range. Qed.
Print Assumptions C23_phi_range.

(** The spherical constructor inverts the accessors ... *)
Theorem C23_spherical_inverse : forall v, vspherical (vr v) (vphi v) (vtheta v) = v.
Proof. exact sph_of_accessors. Qed.
Print Assumptions C23_spherical_inverse.

(** ... and the accessors invert it. *)
Theorem C23_spherical_accessors : forall r phi theta, 0 < r -> 0 < theta < PI ->
  vr (vspherical r phi theta) = r /\ vtheta (vspherical r phi theta) = theta /\
  (- PI < phi <= PI -> vphi (vspherical r phi theta) = phi).
Proof. exact accessors_of_sph. Qed.
Print Assumptions C23_spherical_accessors.

(** Range of theta. *)
Theorem C23_theta_range : forall v, 0 <= vtheta v <= PI.
Proof. exact theta_range. Qed.
Print Assumptions C23_theta_range.

(** The cross product is orthogonal to its factors and anticommutative, with the Lagrange identity. *)
Theorem C23_cross : forall a b, vdot (vcross a b) a = 0 /\ vdot (vcross a b) b = 0 /\
  vcross a b = vscale (-1) (vcross b a) /\
  vr2 (vcross a b) = vr2 a * vr2 b - vdot a b * vdot a b.
Proof. exact cross_laws. Qed.
Print Assumptions C23_cross.

(** The scalar product is symmetric and bilinear. *)
Theorem C23_dot : forall a b c s, vdot a b = vdot b a /\ vdot (vadd a b) c = vdot a c + vdot b c /\
  vdot (vscale s a) b = s * vdot a b /\ vdot a a = vr2 a /\ vsub a b = vadd a (vscale (-1) b).
Proof. exact dot_laws. Qed.
Print Assumptions C23_dot.

(** Lengths. *)
Theorem C23_lengths : forall v, 0 <= vr v /\ vr v * vr v = vr2 v /\ vrho v * vrho v = vtrans2 v /\ (vr v = 0 <-> v = vzero).
Proof. exact r_laws. Qed.
Print Assumptions C23_lengths.

(** Unit vectors have length one and the same direction; only the zero vector has none. *)
Theorem C23_unit : forall v,
  (vunit v = None <-> v = vzero) /\
  (forall u, vunit v = Some u -> vr u = 1 /\ vscale (vr v) u = v).
Proof. exact unit_laws. Qed.
Print Assumptions C23_unit.

(** Cauchy-Schwarz. *)
Theorem C23_cauchy_schwarz : forall a b, Rabs (vdot a b) <= vr a * vr b.
Proof. exact cauchy_schwarz. Qed.
Print Assumptions C23_cauchy_schwarz.

(** Comparison. *)
Theorem C23_equality : forall a b, veqb a b = true <-> a = b.
Proof. exact eqb_exact. Qed.
Print Assumptions C23_equality.

(** Bracket access agrees with x, y, z; an assignment out of range changes no vector but is seen by later out-of-range reads of every vector. *)
Theorem C23_bracket : forall v d i x,
  vget v 0 = vx v /\ vget v 1 = vy v /\ vget v 2 = vz v /\
  ((0 <= i <= 2)%Z -> vref v d i = vget v i /\
     let '(v', d') := vset v d i x in vget v' i = x /\ d' = d /\ forall k, k <> i -> vget v' k = vget v k) /\
  (~ (0 <= i <= 2)%Z -> vget v i = 0 /\ vset v d i x = (v, x) /\
     forall w k, ~ (0 <= k <= 2)%Z -> vref w (snd (vset v d i x)) k = x).
Proof. exact bracket. Qed.
Print Assumptions C23_bracket.
