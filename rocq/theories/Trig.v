(** The C library function atan2 over the reals, and its characteristic properties.
    Simplification: the reals have no signed zero, so atan2(-0.0, x) is atan2(0.0, x). *)
From Coq Require Import ZArith Reals Lra Lia.
From Verif Require Import RBase.
Open Scope R_scope.

Definition atan2 (y x : R) : R :=
  if Rltb 0 x then atan (y / x)
  else if Rltb x 0 then (if Rleb 0 y then atan (y / x) + PI else atan (y / x) - PI)
  else if Rltb 0 y then PI / 2 else if Rltb y 0 then - (PI / 2) else 0.

Lemma sqrt_ratio : forall x y, x <> 0 -> sqrt (1 + (y / x)²) = sqrt (x * x + y * y) / Rabs x.
Proof.
  intros x y H. replace (1 + (y / x)²) with ((x * x + y * y) / (x * x)) by (unfold Rsqr; field; auto).
  rewrite sqrt_div_alt by nra. f_equal. rewrite <- (sqrt_Rsqr_abs x). reflexivity.
Qed.
Lemma sqrt_pos2 : forall x y, (x <> 0 \/ y <> 0) -> 0 < sqrt (x * x + y * y).
Proof. intros x y H. apply sqrt_lt_R0. destruct H; nra. Qed.

Lemma atan2_cos : forall x y, (x <> 0 \/ y <> 0) -> sqrt (x * x + y * y) * cos (atan2 y x) = x.
Proof.
  intros x y H. pose proof (sqrt_pos2 x y H) as P. unfold atan2.
  destruct (Rltb_spec 0 x); [|destruct (Rltb_spec x 0)].
  - rewrite cos_atan, sqrt_ratio, Rabs_pos_eq by lra. field. lra.
  - assert (C : sqrt (x * x + y * y) * cos (atan (y / x)) = - x).
    { rewrite cos_atan, sqrt_ratio, Rabs_left by lra. field. lra. }
    destruct (Rleb_spec 0 y).
    + rewrite neg_cos. lra.
    + replace (atan (y / x) - PI) with (- (- atan (y / x) + PI)) by lra. rewrite cos_neg, neg_cos, cos_neg. lra.
  - replace x with 0 in * by lra. destruct (Rltb_spec 0 y); [rewrite cos_PI2; lra|].
    destruct (Rltb_spec y 0); [rewrite cos_neg, cos_PI2; lra|]. destruct H; lra.
Qed.
Lemma atan2_sin : forall x y, (x <> 0 \/ y <> 0) -> sqrt (x * x + y * y) * sin (atan2 y x) = y.
Proof.
  intros x y H. pose proof (sqrt_pos2 x y H) as P. unfold atan2.
  destruct (Rltb_spec 0 x); [|destruct (Rltb_spec x 0)].
  - rewrite sin_atan, sqrt_ratio, Rabs_pos_eq by lra. field. lra.
  - assert (C : sqrt (x * x + y * y) * sin (atan (y / x)) = - y).
    { rewrite sin_atan, sqrt_ratio, Rabs_left by lra. field. lra. }
    destruct (Rleb_spec 0 y).
    + rewrite neg_sin. lra.
    + replace (atan (y / x) - PI) with (- (- atan (y / x) + PI)) by lra. rewrite sin_neg, neg_sin, sin_neg. lra.
  - replace x with 0 in * by lra.
    assert (E : sqrt (0 * 0 + y * y) = Rabs y) by (replace (0 * 0 + y * y) with (y²) by (unfold Rsqr; ring); apply sqrt_Rsqr_abs).
    destruct (Rltb_spec 0 y); [rewrite E, sin_PI2, Rabs_pos_eq; lra|].
    destruct (Rltb_spec y 0); [rewrite E, sin_neg, sin_PI2, Rabs_left; lra|]. destruct H; lra.
Qed.
Lemma atan_neg_le : forall u, u <= 0 -> atan u <= 0.
Proof. intros u H. destruct H as [H|H]; [pose proof (atan_increasing _ _ H); rewrite atan_0 in *; lra|rewrite H, atan_0; lra]. Qed.
Lemma atan_pos_lt : forall u, 0 < u -> 0 < atan u.
Proof. intros u H. pose proof (atan_increasing _ _ H); rewrite atan_0 in *; lra. Qed.
Lemma atan2_bounds : forall x y, - PI < atan2 y x <= PI.
Proof.
  intros x y. unfold atan2. pose proof PI_RGT_0. pose proof (atan_bound (y / x)).
  destruct (Rltb_spec 0 x); [lra|destruct (Rltb_spec x 0)].
  - destruct (Rleb_spec 0 y).
    + assert (y / x <= 0). { unfold Rdiv. assert (/ x < 0) by now apply Rinv_lt_0_compat. nra. }
      apply atan_neg_le in H4. lra.
    + assert (0 < y / x). { unfold Rdiv. assert (/ x < 0) by now apply Rinv_lt_0_compat. nra. }
      apply atan_pos_lt in H4. lra.
  - destruct (Rltb_spec 0 y); [lra|]. destruct (Rltb_spec y 0); lra.
Qed.
Lemma angle_unique : forall a b, cos a = cos b -> sin a = sin b -> - 2 * PI < a - b < 2 * PI -> a = b.
Proof.
  intros a b Hc Hs Hd.
  assert (E : cos (a - b) = 1). { rewrite cos_minus, Hc, Hs. pose proof (sin2_cos2 b). unfold Rsqr in *. lra. }
  assert (S : sin ((a - b) / 2) = 0).
  { replace (a - b) with (2 * ((a - b) / 2)) in E by lra. rewrite cos_2a_sin in E. nra. }
  apply sin_eq_0_0 in S. destruct S as [k Hk]. pose proof PI_RGT_0.
  assert (-1 < IZR k < 1) by (split; apply Rmult_lt_reg_r with PI; lra).
  assert (k = 0)%Z. { destruct H0 as [A B]. apply (lt_IZR (-1)) in A. apply (lt_IZR _ 1) in B. lia. }
  subst k. simpl in Hk. lra.
Qed.
Lemma norm_polar : forall rho phi, 0 <= rho -> sqrt ((rho * cos phi) * (rho * cos phi) + (rho * sin phi) * (rho * sin phi)) = rho.
Proof.
  intros. pose proof (sin2_cos2 phi) as E. unfold Rsqr in E.
  replace ((rho * cos phi) * (rho * cos phi) + (rho * sin phi) * (rho * sin phi)) with (rho²).
  - now apply sqrt_Rsqr.
  - unfold Rsqr. transitivity (rho * rho * (sin phi * sin phi + cos phi * cos phi)); [rewrite E; ring|ring].
Qed.
Lemma atan2_polar : forall rho phi, 0 < rho -> - PI < phi <= PI -> atan2 (rho * sin phi) (rho * cos phi) = phi.
Proof.
  intros rho phi Hr Hp.
  assert (NZ : rho * cos phi <> 0 \/ rho * sin phi <> 0).
  { destruct (Req_dec (cos phi) 0) as [E|E]; [right|left; apply Rmult_integral_contrapositive_currified; lra].
    apply Rmult_integral_contrapositive_currified; [lra|]. intros E2. pose proof (sin2_cos2 phi). rewrite E, E2 in H. unfold Rsqr in H. lra. }
  pose proof (atan2_cos _ _ NZ) as C. pose proof (atan2_sin _ _ NZ) as S. rewrite norm_polar in C, S by lra.
  pose proof (atan2_bounds (rho * cos phi) (rho * sin phi)).
  apply angle_unique; [apply Rmult_eq_reg_l with rho; lra|apply Rmult_eq_reg_l with rho; lra|lra].
Qed.
