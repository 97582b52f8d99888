From Coq Require Import ZArith Reals Lra Lia Bool.
From Verif Require Import RBase Trig VecModel.
Open Scope R_scope.

Lemma vec_eta : forall v, mkVec (vx v) (vy v) (vz v) = v.
Proof. destruct v; reflexivity. Qed.
Lemma vec_eq : forall a b, vx a = vx b -> vy a = vy b -> vz a = vz b -> a = b.
Proof. destruct a, b; cbn; intros; subst; reflexivity. Qed.

Lemma phi_nz : forall v, (vx v <> 0 \/ vy v <> 0) -> vphi v = atan2 (vy v) (vx v).
Proof. intros v H. unfold vphi. destruct (Reqb_spec (vx v) 0), (Reqb_spec (vy v) 0); cbn; auto; destruct H; lra. Qed.

Lemma cyl_of_accessors : forall v, vcylindrical (vrho v) (vphi v) (vz v) = v.
Proof.
  intros v. apply vec_eq; cbn; auto; unfold vrho, vtrans;
    (destruct (Req_dec (vx v) 0) as [Ex|Ex]; [destruct (Req_dec (vy v) 0) as [Ey|Ey]|]);
    try (rewrite phi_nz by auto; first [apply atan2_cos; auto|apply atan2_sin; auto]);
    rewrite Ex, Ey; replace (0 * 0 + 0 * 0) with 0 by ring; rewrite sqrt_0; ring.
Qed.
Lemma accessors_of_cyl : forall rho phi z, 0 <= rho ->
  vrho (vcylindrical rho phi z) = rho /\ vz (vcylindrical rho phi z) = z /\
  (0 < rho -> - PI < phi <= PI -> vphi (vcylindrical rho phi z) = phi).
Proof.
  intros rho phi z H. split; [unfold vrho, vtrans; cbn; now apply norm_polar|]. split; [reflexivity|].
  intros H0 Hp. rewrite <- (atan2_polar rho phi H0 Hp) at 2. apply phi_nz. cbn.
  destruct (Req_dec (cos phi) 0) as [E|E]; [right|left; apply Rmult_integral_contrapositive_currified; lra].
  apply Rmult_integral_contrapositive_currified; [lra|]. intros E2. pose proof (sin2_cos2 phi) as F. rewrite E, E2 in F. unfold Rsqr in F. lra.
Qed.
Lemma phi_range : forall v, - PI < vphi v <= PI.
Proof. intros v. unfold vphi. destruct (_ && _)%bool; [pose proof PI_RGT_0; lra|apply atan2_bounds]. Qed.

Lemma rho2 : forall v, vrho v * vrho v = vx v * vx v + vy v * vy v.
Proof. intros. apply sqrt_sqrt. nra. Qed.
Lemma rho_nonneg : forall v, 0 <= vrho v. Proof. intros; apply sqrt_pos. Qed.
Lemma r_rho : forall v, vr v = sqrt (vz v * vz v + vrho v * vrho v).
Proof. intros. rewrite rho2. unfold vr. f_equal. ring. Qed.

Lemma theta_parts : forall v, vr v * cos (vtheta v) = vz v /\ vr v * sin (vtheta v) = vrho v.
Proof.
  intros v. rewrite r_rho. unfold vtheta.
  destruct (Reqb_spec (vx v) 0) as [Ex|Ex], (Reqb_spec (vy v) 0) as [Ey|Ey], (Reqb_spec (vz v) 0) as [Ez|Ez]; cbn.
  1: { assert (E : vrho v = 0) by (unfold vrho, vtrans; rewrite Ex, Ey; replace (0 * 0 + 0 * 0) with 0 by ring; apply sqrt_0).
       rewrite Ez, E. replace (0 * 0 + 0 * 0) with 0 by ring. rewrite sqrt_0. split; ring. }
  all: assert (N : vz v <> 0 \/ vrho v <> 0) by (first [left; assumption|right; intros E; pose proof (rho2 v); rewrite E in *; nra]);
       split; [apply atan2_cos; exact N|apply atan2_sin; exact N].
Qed.
Lemma sph_of_accessors : forall v, vspherical (vr v) (vphi v) (vtheta v) = v.
Proof.
  intros v. destruct (theta_parts v) as [C S]. unfold vspherical. rewrite C, S.
  change (vcylindrical (vrho v) (vphi v) (vz v) = v). apply cyl_of_accessors.
Qed.
Lemma theta_range : forall v, 0 <= vtheta v <= PI.
Proof.
  intros v. pose proof PI_RGT_0. unfold vtheta. destruct (_ && _ && _)%bool; [lra|].
  pose proof (rho_nonneg v). unfold atan2. pose proof (atan_bound (vrho v / vz v)).
  destruct (Rltb_spec 0 (vz v)) as [A|A]; [|destruct (Rltb_spec (vz v) 0) as [B|B]].
  - assert (0 <= vrho v / vz v) by (apply Rmult_le_pos; [lra|left; now apply Rinv_0_lt_compat]).
    destruct H2 as [H2|H2]; [apply atan_pos_lt in H2; lra|rewrite <- H2, atan_0; lra].
  - destruct (Rleb_spec 0 (vrho v)); [|lra].
    assert (vrho v / vz v <= 0). { unfold Rdiv. assert (/ vz v < 0) by now apply Rinv_lt_0_compat. nra. }
    apply atan_neg_le in H3. lra.
  - destruct (Rltb_spec 0 (vrho v)); [lra|]. destruct (Rltb_spec (vrho v) 0); lra.
Qed.
Lemma accessors_of_sph : forall r phi theta, 0 < r -> 0 < theta < PI ->
  vr (vspherical r phi theta) = r /\ vtheta (vspherical r phi theta) = theta /\
  (- PI < phi <= PI -> vphi (vspherical r phi theta) = phi).
Proof.
  intros r phi theta Hr Ht. assert (Hs : 0 < sin theta) by (apply sin_gt_0; lra).
  assert (Hrs : 0 < r * sin theta) by now apply Rmult_lt_0_compat.
  destruct (accessors_of_cyl (r * sin theta) phi (r * cos theta) ltac:(lra)) as [A [B C]].
  change (vspherical r phi theta) with (vcylindrical (r * sin theta) phi (r * cos theta)).
  split; [|split].
  - rewrite r_rho, A, B. apply norm_polar. lra.
  - unfold vtheta. rewrite A. cbn [vz vcylindrical]. rewrite atan2_polar by lra.
    destruct (Reqb_spec (vx (vcylindrical (r * sin theta) phi (r * cos theta))) 0) as [Ex|Ex]; [|reflexivity].
    destruct (Reqb_spec (vy (vcylindrical (r * sin theta) phi (r * cos theta))) 0) as [Ey|Ey]; [|reflexivity].
    exfalso. pose proof (rho2 (vcylindrical (r * sin theta) phi (r * cos theta))) as F. rewrite A, Ex, Ey in F. nra.
  - intros Hp. now apply C.
Qed.

Lemma cross_laws : forall a b, vdot (vcross a b) a = 0 /\ vdot (vcross a b) b = 0 /\
  vcross a b = vscale (-1) (vcross b a) /\
  vr2 (vcross a b) = vr2 a * vr2 b - vdot a b * vdot a b.
Proof.
  intros. unfold vdot, vr2; cbn. split; [ring|]. split; [ring|]. split; [apply vec_eq; cbn; ring|ring].
Qed.
Lemma dot_laws : forall a b c s, vdot a b = vdot b a /\ vdot (vadd a b) c = vdot a c + vdot b c /\
  vdot (vscale s a) b = s * vdot a b /\ vdot a a = vr2 a /\ vsub a b = vadd a (vscale (-1) b).
Proof. intros. unfold vdot, vr2; cbn. repeat split; try ring. apply vec_eq; cbn; ring. Qed.
Lemma r_laws : forall v, 0 <= vr v /\ vr v * vr v = vr2 v /\ vrho v * vrho v = vtrans2 v /\ (vr v = 0 <-> v = vzero).
Proof.
  intros v. assert (P : vr v * vr v = vr2 v) by (unfold vr, vr2; apply sqrt_sqrt; nra).
  split; [apply sqrt_pos|]. split; [exact P|]. split; [apply rho2|]. split.
  - intros E. rewrite E in P. unfold vr2 in P. apply vec_eq; cbn; nra.
  - intros ->. unfold vr; cbn. replace (0 * 0 + 0 * 0 + 0 * 0) with 0 by ring. apply sqrt_0.
Qed.
Lemma unit_laws : forall v,
  (vunit v = None <-> v = vzero) /\
  (forall u, vunit v = Some u -> vr u = 1 /\ vscale (vr v) u = v).
Proof.
  intros v. unfold vunit. destruct (r_laws v) as [P [Q [_ Z]]]. split.
  - destruct (Reqb_spec (vr v) 0) as [E|E]; [tauto|]. split; [discriminate|]. intros X. exfalso. tauto.
  - destruct (Reqb_spec (vr v) 0) as [E|E]; [discriminate|]. intros u X. inversion X; subst u; clear X. split.
    + unfold vr at 1; cbn. unfold vr2 in Q.
      replace (vx v / vr v * (vx v / vr v) + vy v / vr v * (vy v / vr v) + vz v / vr v * (vz v / vr v)) with 1; [apply sqrt_1|].
      transitivity ((vx v * vx v + vy v * vy v + vz v * vz v) / (vr v * vr v)); [rewrite Q; unfold vr2; field; rewrite <- Q; nra|field; auto].
    + apply vec_eq; cbn; field; auto.
Qed.
Lemma cauchy_schwarz : forall a b, Rabs (vdot a b) <= vr a * vr b.
Proof.
  intros a b. destruct (r_laws a) as [Pa [Qa _]], (r_laws b) as [Pb [Qb _]].
  destruct (cross_laws a b) as [_ [_ [_ L]]].
  assert (0 <= vr2 (vcross a b)) by (unfold vr2; nra).
  apply Rsqr_incr_0_var; [|apply Rmult_le_pos; auto]. rewrite <- Rsqr_abs. unfold Rsqr.
  replace (vr a * vr b * (vr a * vr b)) with ((vr a * vr a) * (vr b * vr b)) by ring. rewrite Qa, Qb. lra.
Qed.
Lemma eqb_exact : forall a b, veqb a b = true <-> a = b.
Proof.
  intros a b. unfold veqb. rewrite !andb_true_iff, !Reqb_true. split.
  - intros [[A B] C]. now apply vec_eq.
  - intros ->. auto.
Qed.
Lemma bracket : forall v d i x,
  vget v 0 = vx v /\ vget v 1 = vy v /\ vget v 2 = vz v /\
  ((0 <= i <= 2)%Z -> vref v d i = vget v i /\
     let '(v', d') := vset v d i x in vget v' i = x /\ d' = d /\ forall k, k <> i -> vget v' k = vget v k) /\
  (~ (0 <= i <= 2)%Z -> vget v i = 0 /\ vset v d i x = (v, x) /\
     forall w k, ~ (0 <= k <= 2)%Z -> vref w (snd (vset v d i x)) k = x).
Proof.
  intros v d i x. do 3 (split; [reflexivity|]). split.
  - intros H. assert (C : (i = 0 \/ i = 1 \/ i = 2)%Z) by lia.
    destruct C as [-> | [-> | ->]]; cbn; (split; [reflexivity|]); (split; [reflexivity|]); (split; [reflexivity|]);
      intros k Hk; destruct k as [|[p|p|]|]; cbn; auto; try congruence; destruct p; cbn; auto; congruence.
  - intros H. assert (O : forall j (A : Type) (a b c e : A), ~ (0 <= j <= 2)%Z ->
      match j with 0%Z => a | 1%Z => b | 2%Z => c | _ => e end = e).
    { intros j A a b c e Hj. destruct j as [|[p|p|]|]; try reflexivity; try lia; destruct p; try reflexivity; lia. }
    split; [unfold vget; apply O; exact H|]. assert (E : vset v d i x = (v, x)) by (unfold vset; apply O; exact H).
    split; [exact E|]. intros w k Hk. rewrite E. cbn. unfold vref. apply O; exact Hk.
Qed.
