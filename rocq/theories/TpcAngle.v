(** Directions in which a ring sector is seen from a point: the sector is around the origin, the observer
    at (D,0).  Used for the phi range of a moved module (C59). *)
From Coq Require Import ZArith Reals Lra Lia.
From Verif Require Import RBase Trig DiskBase DiskSpec DiskProofs.
Open Scope R_scope.

(** [x],[y] lies in direction [th] from the origin *)
Definition dir_of (x y th : R) : Prop := exists rho, 0 < rho /\ x = rho * cos th /\ y = rho * sin th.
Definition sees (D r0 r1 t0 t1 th : R) : Prop :=
  exists r t, r0 <= r <= r1 /\ t0 <= t <= t1 /\ dir_of (r * cos t - D) (r * sin t) th.
Definition in_turn (lo hi th : R) : Prop := exists k : Z, lo <= th + 2 * PI * IZR k <= hi.
Definition is_range (P : R -> Prop) (lo hi : R) : Prop := forall th, P th <-> in_turn lo hi th.

Lemma cos_shift' x k : cos (x + 2 * PI * IZR k) = cos x.
Proof. pose proof (same_angle_cos (x + 2 * PI * IZR k) x 0 ltac:(exists k; reflexivity)) as H. now rewrite !Rminus_0_r in H. Qed.
Lemma sin_shift' x k : sin (x + 2 * PI * IZR k) = sin x.
Proof. rewrite <- !cos_shift. replace (PI / 2 - (x + 2 * PI * IZR k)) with (PI / 2 - x + 2 * PI * IZR (- k)) by (rewrite opp_IZR; lra). apply cos_shift'. Qed.

Lemma dir_exists x y : x <> 0 \/ y <> 0 -> dir_of x y (atan2 y x).
Proof. intros H. exists (sqrt (x * x + y * y)). rewrite atan2_cos, atan2_sin by auto. split; [now apply sqrt_pos2|auto]. Qed.
Lemma dir_shift x y th k : dir_of x y th -> dir_of x y (th + 2 * PI * IZR k).
Proof. intros (rho & H). exists rho. now rewrite cos_shift', sin_shift'. Qed.
Lemma dir_cross x y x' y' th th' : dir_of x y th -> dir_of x' y' th' ->
  exists c, 0 < c /\ x * y' - y * x' = c * sin (th' - th).
Proof. intros (r & R & -> & ->) (r' & R' & -> & ->). exists (r * r'). split; [now apply Rmult_lt_0_compat|]. rewrite sin_minus. ring. Qed.
Lemma dir_turn x y th th' : dir_of x y th -> dir_of x y th' -> exists k : Z, th' = th + 2 * PI * IZR k.
Proof.
  intros (r & R & E1 & E2) (r' & R' & E3 & E4).
  assert (N : r = r').
  { assert (r * r = r' * r').
    { pose proof (sin2_cos2 th) as S. pose proof (sin2_cos2 th') as S'. unfold Rsqr in *.
      transitivity (x * x + y * y); [rewrite E1, E2|rewrite E3, E4].
      - transitivity (r * r * (sin th * sin th + cos th * cos th)); [rewrite S; ring|ring].
      - transitivity (r' * r' * (sin th' * sin th' + cos th' * cos th')); [ring|rewrite S'; ring]. }
    nra. }
  subst r'. assert (C : cos th' = cos th) by (apply (Rmult_eq_reg_l r); lra).
  assert (Sn : sin th' = sin th) by (apply (Rmult_eq_reg_l r); lra).
  pose proof PI2_pos as P. set (u := wrap_down (th + 2 * PI) (wrap_up th th')).
  pose proof (wrap_window th (th + 2 * PI) th' ltac:(lra)) as W. fold u in W.
  destruct (wrap_same th (th + 2 * PI) th') as [k K]. fold u in K.
  assert (Cu : cos u = cos th) by (rewrite K, cos_shift'; exact C).
  assert (Su : sin u = sin th) by (rewrite K, sin_shift'; exact Sn).
  destruct (Rle_lt_or_eq_dec u (th + 2 * PI) (proj2 W)) as [L|L].
  - assert (u = th) by (apply angle_unique; auto; lra). exists (- k)%Z. rewrite opp_IZR. lra.
  - exists (1 - k)%Z. rewrite minus_IZR. lra.
Qed.

(** ** ranges *)
Lemma turn_shift lo hi th k : in_turn lo hi (th + 2 * PI * IZR k) <-> in_turn lo hi th.
Proof.
  split; intros [j J].
  - exists (k + j)%Z. rewrite plus_IZR. lra.
  - exists (j - k)%Z. rewrite minus_IZR. lra.
Qed.
Lemma range_shift P lo hi k : is_range P lo hi -> is_range P (lo + 2 * PI * IZR k) (hi + 2 * PI * IZR k).
Proof.
  intros H th. rewrite (H th). split; intros [j J].
  - exists (j + k)%Z. rewrite plus_IZR. lra.
  - exists (j - k)%Z. rewrite minus_IZR. lra.
Qed.
Lemma range_ext P Q lo hi : (forall th, P th <-> Q th) -> is_range P lo hi -> is_range Q lo hi.
Proof. intros E H th. rewrite <- (E th). apply H. Qed.
Lemma range_neg P lo hi : is_range P lo hi -> is_range (fun th => P (- th)) (- hi) (- lo).
Proof.
  intros H th. rewrite (H (- th)). split; intros [j J]; exists (- j)%Z; rewrite opp_IZR; lra.
Qed.
Lemma range_union P Q a b c : a <= b <= c -> is_range P a b -> is_range Q b c -> is_range (fun th => P th \/ Q th) a c.
Proof.
  intros L H K th. rewrite (H th), (K th). split.
  - intros [[j J]|[j J]]; exists j; lra.
  - intros [j J]. destruct (Rle_dec (th + 2 * PI * IZR j) b); [left|right]; exists j; lra.
Qed.
Lemma range_rotate P lo hi g : is_range P lo hi -> is_range (fun th => P (th - g)) (lo + g) (hi + g).
Proof. intros H th. rewrite (H (th - g)). split; intros [j J]; exists j; lra. Qed.

(** ** what is seen *)
Lemma sees_split D r0 r1 t0 m t1 th : t0 <= m <= t1 -> sees D r0 r1 t0 t1 th <-> sees D r0 r1 t0 m th \/ sees D r0 r1 m t1 th.
Proof.
  intros M. split.
  - intros (r & t & R & T & H). destruct (Rle_dec t m); [left|right]; exists r, t; repeat split; auto; lra.
  - intros [(r & t & R & T & H)|(r & t & R & T & H)]; exists r, t; repeat split; auto; lra.
Qed.
Lemma sees_reflect D r0 r1 t0 t1 th : sees D r0 r1 t0 t1 th <-> sees D r0 r1 (- t1) (- t0) (- th).
Proof.
  assert (G : forall t0 t1 th, sees D r0 r1 t0 t1 th -> sees D r0 r1 (- t1) (- t0) (- th)).
  { intros a b c (r & t & R & T & rho & P & X & Y). exists r, (- t). split; [auto|split; [lra|]]. exists rho.
    rewrite !cos_neg, !sin_neg. repeat split; lra. }
  split; [apply G|]. intros H. apply G in H. now rewrite !Ropp_involutive in H.
Qed.
Lemma sees_turn D r0 r1 t0 t1 k th : sees D r0 r1 t0 t1 th <-> sees D r0 r1 (t0 + 2 * PI * IZR k) (t1 + 2 * PI * IZR k) th.
Proof.
  assert (G : forall t0 t1 k, sees D r0 r1 t0 t1 th -> sees D r0 r1 (t0 + 2 * PI * IZR k) (t1 + 2 * PI * IZR k) th).
  { intros a b j (r & t & R & T & H). exists r, (t + 2 * PI * IZR j). rewrite cos_shift', sin_shift'. repeat split; auto; lra. }
  split; [apply G|]. intros H. apply (G _ _ (- k)%Z) in H. rewrite opp_IZR in H.
  replace (t0 + 2 * PI * IZR k + 2 * PI * - IZR k) with t0 in H by lra.
  replace (t1 + 2 * PI * IZR k + 2 * PI * - IZR k) with t1 in H by lra. exact H.
Qed.
Lemma sees_shift D r0 r1 t0 t1 th k : sees D r0 r1 t0 t1 th -> sees D r0 r1 t0 t1 (th + 2 * PI * IZR k).
Proof. intros (r & t & R & T & H). exists r, t. auto using dir_shift. Qed.

(** the cross product of what is seen at two places *)
Definition cross (D r t r' t' : R) : R := (r * cos t - D) * (r' * sin t') - (r * sin t) * (r' * cos t' - D).
Lemma cross_radial D r r' t : cross D r t r' t = D * (r - r') * sin t.
Proof. unfold cross. ring. Qed.
Lemma cross_arc D r t t' : cross D r t r t' = 2 * r * sin ((t' - t) / 2) * (r * cos ((t' - t) / 2) - D * cos ((t + t') / 2)).
Proof.
  assert (E : cross D r t r t' = r * (r * sin (t' - t) - D * (sin t' - sin t))) by (unfold cross; rewrite sin_minus; ring).
  rewrite E. set (x := t / 2). set (y := t' / 2). replace t with (2 * x) by (unfold x; lra). replace t' with (2 * y) by (unfold y; lra).
  replace (2 * y - 2 * x) with (2 * (y - x)) by lra. replace (2 * (y - x) / 2) with (y - x) by lra. replace ((2 * x + 2 * y) / 2) with (x + y) by lra.
  rewrite !sin_2a, !sin_minus, !cos_plus, !cos_minus.
  pose proof (sin2_cos2 x) as Sx. pose proof (sin2_cos2 y) as Sy. unfold Rsqr in *.
  set (sx := sin x) in *. set (cx := cos x) in *. set (sy := sin y) in *. set (cy := cos y) in *.
  assert (K : sy * cy - sx * cx = (sy * cx - cy * sx) * (cx * cy - sx * sy)).
  { transitivity (sy * cy * (sx * sx + cx * cx) - sx * cx * (sy * sy + cy * cy)); [rewrite Sx, Sy; ring|ring]. }
  transitivity (2 * r * (r * ((sy * cx - cy * sx) * (cy * cx + sy * sx)) - D * (sy * cy - sx * cx))); [ring|]. rewrite K. ring.
Qed.

(** ** a sector in the upper half plane *)
Definition delta (D r t : R) : R := atan2 (r * sin t) (r * cos t - D).
Lemma atan2_upper y x : 0 <= y -> 0 <= atan2 y x <= PI.
Proof.
  intros Y. pose proof PI_RGT_0 as P. unfold atan2, Rltb, Rleb.
  pose proof (atan_bound (y / x)) as B.
  destruct (Rlt_dec 0 x).
  - assert (0 <= atan (y / x)).
    { destruct (Req_dec y 0) as [->|].
      - unfold Rdiv. rewrite Rmult_0_l, atan_0. lra.
      - left. rewrite <- atan_0. apply atan_increasing. apply Rdiv_lt_0_compat; lra. }
    lra.
  - destruct (Rlt_dec x 0).
    + destruct (Rle_dec 0 y); [|lra].
      assert (atan (y / x) <= 0).
      { destruct (Req_dec y 0) as [->|].
        - unfold Rdiv. rewrite Rmult_0_l, atan_0. lra.
        - left. rewrite <- atan_0. apply atan_increasing.
          replace (y / x) with (- (y / - x)) by (field; lra). apply Ropp_lt_gt_0_contravar. apply Rdiv_lt_0_compat; lra. }
      lra.
    + destruct (Rlt_dec 0 y); [lra|]. destruct (Rlt_dec y 0); lra.
Qed.
Lemma delta_bounds D r t : 0 <= r -> 0 <= t <= PI -> 0 <= delta D r t <= PI.
Proof. intros R T. apply atan2_upper. apply Rmult_le_pos; [lra|]. now apply sin_ge_0. Qed.
Lemma upper_turn x y th : 0 <= y -> dir_of x y th -> exists k : Z, th = atan2 y x + 2 * PI * IZR k.
Proof.
  intros Y H. assert (N : x <> 0 \/ y <> 0).
  { destruct (Req_dec x 0) as [->|]; auto. destruct (Req_dec y 0) as [->|]; auto.
    destruct H as (rho & P & X & Z). pose proof (sin2_cos2 th) as S. unfold Rsqr in S.
    assert (cos th = 0) by (apply (Rmult_eq_reg_l rho); lra). assert (sin th = 0) by (apply (Rmult_eq_reg_l rho); lra). nra. }
  apply (dir_turn _ _ _ _ (dir_exists x y N) H).
Qed.
Lemma order x y x' y' th th' : 0 <= th <= PI -> 0 <= th' <= PI -> dir_of x y th -> dir_of x' y' th' ->
  0 <= x * y' - y * x' -> ~ (x < 0 /\ 0 < x') -> th <= th'.
Proof.
  intros B B' H H' C N. destruct (dir_cross _ _ _ _ _ _ H H') as (c & P & E). rewrite E in C.
  destruct (Rle_dec th th') as [|L]; [auto|]. exfalso. apply Rnot_le_lt in L.
  assert (S : 0 <= sin (th' - th)).
  { apply (Rmult_le_reg_l c); lra. }
  destruct (Req_dec (th - th') PI) as [Q|Q].
  - assert (th = PI) by lra. assert (th' = 0) by lra. subst th th'. apply N.
    destruct H as (r & R & -> & _). destruct H' as (r' & R' & -> & _). rewrite cos_PI, cos_0. lra.
  - pose proof (sin_gt_0 (th - th') ltac:(lra) ltac:(lra)) as G.
    replace (th' - th) with (- (th - th')) in S by lra. rewrite sin_neg in S. lra.
Qed.

Section Upper.
Variables D r0 r1 t0 t1 : R.
Hypothesis HD : 0 < D < r1.
Hypothesis Hr : 0 <= r0 <= r1.
Hypothesis Ht : 0 <= t0 <= t1 /\ t1 <= PI.
Hypothesis Hn : 0 < t0 \/ D < r0.

Lemma up_nonzero r t : r0 <= r -> t0 <= t <= t1 -> r * cos t - D <> 0 \/ r * sin t <> 0.
Proof.
  intros R T. destruct (Req_dec (r * sin t) 0) as [E|E]; [left|right; auto]. intros X.
  assert (C : r * cos t = D) by lra. assert (r <> 0) by nra. assert (Z : sin t = 0) by (apply (Rmult_eq_reg_l r); lra).
  destruct (Req_dec t 0) as [->|Q].
  - rewrite cos_0 in C. destruct Hn; lra.
  - destruct (Req_dec t PI) as [->|Q'].
    + rewrite cos_PI in C. lra.
    + pose proof (sin_gt_0 t ltac:(lra) ltac:(lra)). lra.
Qed.
Lemma up_dir r t : r0 <= r -> t0 <= t <= t1 -> dir_of (r * cos t - D) (r * sin t) (delta D r t).
Proof. intros R T. apply dir_exists. now apply up_nonzero. Qed.
Lemma up_bounds r t : r0 <= r -> t0 <= t <= t1 -> 0 <= delta D r t <= PI.
Proof. intros R T. apply delta_bounds; lra. Qed.

Lemma up_radial r r' t : r0 <= r -> r <= r' -> t0 <= t <= t1 -> delta D r' t <= delta D r t.
Proof.
  intros R R' T. pose proof (sin_ge_0 t ltac:(lra) ltac:(lra)) as S.
  apply (order (r' * cos t - D) (r' * sin t) (r * cos t - D) (r * sin t)); try (apply up_bounds; lra); try (apply up_dir; lra).
  - change (0 <= cross D r' t r t). rewrite cross_radial. apply Rmult_le_pos; auto. apply Rmult_le_pos; lra.
  - intros [A B]. assert (0 < cos t) by nra. assert (r * cos t <= r' * cos t) by (apply Rmult_le_compat_r; lra). lra.
Qed.
Lemma up_outer t : t0 <= t <= t1 -> delta D r1 t0 <= delta D r1 t.
Proof.
  intros T. pose proof PI_RGT_0 as P.
  assert (C : cos t <= cos t0) by (apply cos_decr_1; lra).
  apply (order (r1 * cos t0 - D) (r1 * sin t0) (r1 * cos t - D) (r1 * sin t)); try (apply up_bounds; lra); try (apply up_dir; lra).
  - change (0 <= cross D r1 t0 r1 t). rewrite cross_arc.
    assert (S : 0 <= sin ((t - t0) / 2)) by (apply sin_ge_0; lra).
    assert (K : 0 <= cos ((t - t0) / 2)) by (apply cos_ge_0; lra).
    assert (L : cos ((t0 + t) / 2) <= cos ((t - t0) / 2)) by (apply cos_decr_1; lra).
    apply Rmult_le_pos; [apply Rmult_le_pos; lra|]. nra.
  - intros [A B]. assert (r1 * cos t <= r1 * cos t0) by (apply Rmult_le_compat_l; lra). lra.
Qed.
Lemma up_inner t : t0 <= t <= t1 -> delta D r0 t <= delta D r0 t0 \/ delta D r0 t <= delta D r0 t1.
Proof.
  intros T. pose proof PI_RGT_0 as P.
  assert (Z : 0 <= cross D r0 t r0 t1 \/ 0 <= cross D r0 t r0 t0 /\ r0 < D).
  { rewrite !cross_arc.
    replace ((t0 - t) / 2) with (- ((t - t0) / 2)) by lra. rewrite sin_neg, cos_neg.
    assert (S1 : 0 <= sin ((t1 - t) / 2)) by (apply sin_ge_0; lra).
    assert (S0 : 0 <= sin ((t - t0) / 2)) by (apply sin_ge_0; lra).
    set (F1 := r0 * cos ((t1 - t) / 2) - D * cos ((t + t1) / 2)).
    set (F0 := r0 * cos ((t - t0) / 2) - D * cos ((t + t0) / 2)).
    assert (E1 : F1 = (r0 - D) * (cos (t1 / 2) * cos (t / 2)) + (r0 + D) * (sin (t1 / 2) * sin (t / 2))).
    { unfold F1. replace ((t1 - t) / 2) with (t1 / 2 - t / 2) by lra. replace ((t + t1) / 2) with (t1 / 2 + t / 2) by lra. rewrite cos_minus, cos_plus. ring. }
    assert (E0 : F0 = (r0 - D) * (cos (t0 / 2) * cos (t / 2)) + (r0 + D) * (sin (t0 / 2) * sin (t / 2))).
    { unfold F0. replace ((t - t0) / 2) with (t / 2 - t0 / 2) by lra. replace ((t + t0) / 2) with (t0 / 2 + t / 2) by lra. rewrite cos_minus, cos_plus. ring. }
    destruct (Rle_dec 0 F1) as [G|G].
    - left. apply Rmult_le_pos; [apply Rmult_le_pos; lra|auto].
    - right. apply Rnot_le_lt in G.
      assert (c1 : 0 <= cos (t1 / 2)) by (apply cos_ge_0; lra). assert (c : 0 <= cos (t / 2)) by (apply cos_ge_0; lra).
      assert (s1 : 0 <= sin (t1 / 2)) by (apply sin_ge_0; lra). assert (s : 0 <= sin (t / 2)) by (apply sin_ge_0; lra).
      assert (s0 : 0 <= sin (t0 / 2)) by (apply sin_ge_0; lra).
      assert (c01 : cos (t1 / 2) <= cos (t0 / 2)) by (apply cos_decr_1; lra).
      assert (s01 : sin (t0 / 2) <= sin (t1 / 2)) by (apply sin_incr_1; lra).
      assert (A1 : 0 <= cos (t1 / 2) * cos (t / 2)) by now apply Rmult_le_pos.
      assert (A2 : 0 <= sin (t1 / 2) * sin (t / 2)) by now apply Rmult_le_pos.
      assert (A3 : cos (t1 / 2) * cos (t / 2) <= cos (t0 / 2) * cos (t / 2)) by now apply Rmult_le_compat_r.
      assert (A4 : sin (t0 / 2) * sin (t / 2) <= sin (t1 / 2) * sin (t / 2)) by now apply Rmult_le_compat_r.
      set (p1 := cos (t1 / 2) * cos (t / 2)) in *. set (q1 := sin (t1 / 2) * sin (t / 2)) in *.
      set (p0 := cos (t0 / 2) * cos (t / 2)) in *. set (q0 := sin (t0 / 2) * sin (t / 2)) in *.
      assert (L : r0 < D).
      { destruct (Rlt_dec r0 D) as [|N]; auto. exfalso. apply Rnot_lt_le in N.
        assert (0 <= (r0 - D) * p1) by (apply Rmult_le_pos; lra). assert (0 <= (r0 + D) * q1) by (apply Rmult_le_pos; lra). lra. }
      split; [|auto].
      assert (F0 <= 0).
      { assert ((r0 - D) * p0 <= (r0 - D) * p1) by (apply Rmult_le_compat_neg_l; lra).
        assert ((r0 + D) * q0 <= (r0 + D) * q1) by (apply Rmult_le_compat_l; lra). lra. }
      replace (2 * r0 * - sin ((t - t0) / 2) * F0) with (2 * r0 * sin ((t - t0) / 2) * - F0) by ring.
      apply Rmult_le_pos; [apply Rmult_le_pos; lra|lra]. }
  destruct Z as [Z|[Z L]].
  - right. apply (order (r0 * cos t - D) (r0 * sin t) (r0 * cos t1 - D) (r0 * sin t1)); try (apply up_bounds; lra); try (apply up_dir; lra); auto.
    intros [A B]. assert (C : cos t1 <= cos t) by (apply cos_decr_1; lra). assert (r0 * cos t1 <= r0 * cos t) by (apply Rmult_le_compat_l; lra). lra.
  - left. apply (order (r0 * cos t - D) (r0 * sin t) (r0 * cos t0 - D) (r0 * sin t0)); try (apply up_bounds; lra); try (apply up_dir; lra); auto.
    intros [A B]. pose proof (COS_bound t0). nra.
Qed.

(** a direction strictly between those of two places of the sector is also seen *)
Lemma up_between r t r' t' th : r0 <= r <= r1 -> t0 <= t <= t1 -> r0 <= r' <= r1 -> t0 <= t' <= t1 ->
  delta D r t <= th <= delta D r' t' -> sees D r0 r1 t0 t1 th.
Proof.
  intros R T R' T' B. pose proof PI_RGT_0 as P.
  destruct (Req_dec th (delta D r t)) as [->|N1]; [exists r, t; repeat split; try lra; apply up_dir; lra|].
  destruct (Req_dec th (delta D r' t')) as [->|N2]; [exists r', t'; repeat split; try lra; apply up_dir; lra|].
  pose proof (up_bounds r t ltac:(lra) T) as B1. pose proof (up_bounds r' t' ltac:(lra) T') as B2.
  set (f := fun s => cos th * (((1 - s) * r + s * r') * sin ((1 - s) * t + s * t'))
                     - sin th * (((1 - s) * r + s * r') * cos ((1 - s) * t + s * t') - D)).
  assert (Cf : continuity f) by (unfold f; reg).
  destruct (up_dir r t ltac:(lra) T) as (p & Pp & X & Y). destruct (up_dir r' t' ltac:(lra) T') as (p' & Pp' & X' & Y').
  assert (F0 : f 0 < 0).
  { unfold f. replace ((1 - 0) * r + 0 * r') with r by lra. replace ((1 - 0) * t + 0 * t') with t by lra. rewrite X, Y.
    pose proof (sin_gt_0 (th - delta D r t) ltac:(lra) ltac:(lra)) as S. rewrite sin_minus in S. nra. }
  assert (F1 : 0 < f 1).
  { unfold f. replace ((1 - 1) * r + 1 * r') with r' by lra. replace ((1 - 1) * t + 1 * t') with t' by lra. rewrite X', Y'.
    pose proof (sin_gt_0 (delta D r' t' - th) ltac:(lra) ltac:(lra)) as S. rewrite sin_minus in S. nra. }
  destruct (IVT f 0 1 Cf ltac:(lra) F0 F1) as (s & Bs & Z). unfold f in Z.
  set (rs := (1 - s) * r + s * r') in *. set (ts := (1 - s) * t + s * t') in *.
  assert (Rs : r0 <= rs <= r1) by (unfold rs; split; nra). assert (Ts : t0 <= ts <= t1) by (unfold ts; split; nra).
  exists rs, ts. split; [auto|]. split; [auto|].
  set (x := rs * cos ts - D) in *. set (y := rs * sin ts) in *.
  assert (Sth : 0 < sin th) by (apply sin_gt_0; lra).
  assert (Yp : 0 <= y) by (apply Rmult_le_pos; [lra|]; apply sin_ge_0; lra).
  assert (Q := sin2_cos2 th). unfold Rsqr in Q.
  exists (x * cos th + y * sin th).
  assert (EX : x = (x * cos th + y * sin th) * cos th).
  { transitivity (x * (sin th * sin th + cos th * cos th)); [rewrite Q; ring|].
    transitivity ((x * cos th + y * sin th) * cos th + sin th * (x * sin th - y * cos th)); [ring|]. replace (x * sin th - y * cos th) with 0 by lra. ring. }
  assert (EY : y = (x * cos th + y * sin th) * sin th).
  { transitivity (y * (sin th * sin th + cos th * cos th)); [rewrite Q; ring|].
    transitivity ((x * cos th + y * sin th) * sin th - cos th * (x * sin th - y * cos th)); [ring|]. replace (x * sin th - y * cos th) with 0 by lra. ring. }
  split; [|split; auto].
  set (l := x * cos th + y * sin th) in *.
  destruct (Rtotal_order l 0) as [L|[L|L]]; [nra| |auto].
  exfalso. destruct (up_nonzero rs ts ltac:(lra) Ts) as [A|A]; [fold x in A|fold y in A]; apply A; [rewrite EX, L|rewrite EY, L]; ring.
Qed.

Lemma upper_range : is_range (sees D r0 r1 t0 t1) (delta D r1 t0) (Rmax (delta D r0 t0) (delta D r0 t1)).
Proof.
  intros th. split.
  - intros (r & t & R & T & H).
    assert (S : 0 <= r * sin t) by (apply Rmult_le_pos; [lra|]; apply sin_ge_0; lra).
    destruct (upper_turn _ _ _ S H) as [k K]. fold (delta D r t) in K. exists (- k)%Z. rewrite opp_IZR.
    replace (th + 2 * PI * - IZR k) with (delta D r t) by lra.
    pose proof (up_radial r r1 t ltac:(lra) ltac:(lra) T). pose proof (up_outer t T).
    pose proof (up_radial r0 r t ltac:(lra) ltac:(lra) T).
    split; [lra|]. destruct (up_inner t T); [eapply Rle_trans; [|apply Rmax_l]|eapply Rle_trans; [|apply Rmax_r]]; lra.
  - intros [k K]. assert (G : sees D r0 r1 t0 t1 (th + 2 * PI * IZR k)).
    { unfold Rmax in K. destruct (Rle_dec _ _) in K.
      - apply (up_between r1 t0 r0 t1); auto; lra.
      - apply (up_between r1 t0 r0 t0); auto; lra. }
    apply (sees_shift _ _ _ _ _ _ (- k)%Z) in G. rewrite opp_IZR in G.
    replace (th + 2 * PI * IZR k + 2 * PI * - IZR k) with th in G by lra. exact G.
Qed.
Lemma upper_corners : delta D r1 t0 <= delta D r0 t0 /\ delta D r1 t0 <= delta D r0 t1.
Proof.
  pose proof (up_radial r0 r1 t0 ltac:(lra) ltac:(lra) ltac:(lra)). pose proof (up_radial r0 r1 t1 ltac:(lra) ltac:(lra) ltac:(lra)).
  pose proof (up_outer t1 ltac:(lra)). lra.
Qed.
End Upper.

(** ** the pieces put together, for an observer inside the outer radius *)
Lemma lower_range D r0 r1 t0 t1 : 0 < D < r1 -> 0 <= r0 <= r1 -> 0 <= t0 <= t1 /\ t1 <= PI -> (0 < t0 \/ D < r0) ->
  is_range (sees D r0 r1 (- t1) (- t0)) (- Rmax (delta D r0 t0) (delta D r0 t1)) (- delta D r1 t0).
Proof.
  intros HD Hr Ht Hn. eapply range_ext; [|apply range_neg, (upper_range D r0 r1 t0 t1); auto].
  intros th. cbv beta. rewrite (sees_reflect D r0 r1 t0 t1 (- th)). now rewrite Ropp_involutive.
Qed.
Lemma delta_PI D r : 0 < D -> 0 <= r -> delta D r PI = PI.
Proof.
  intros HD R. unfold delta. rewrite sin_PI, cos_PI. unfold atan2, Rltb, Rleb.
  destruct (Rlt_dec 0 (r * -1 - D)); [lra|]. destruct (Rlt_dec (r * -1 - D) 0); [|lra].
  destruct (Rle_dec 0 (r * 0)); [|lra]. unfold Rdiv. rewrite Rmult_0_r, Rmult_0_l, atan_0. lra.
Qed.
Lemma delta_0 D r : D < r -> delta D r 0 = 0.
Proof.
  intros R. unfold delta. rewrite sin_0, cos_0. unfold atan2, Rltb.
  destruct (Rlt_dec 0 (r * 1 - D)); [|lra]. unfold Rdiv. rewrite Rmult_0_r, Rmult_0_l, atan_0. lra.
Qed.

(** the sector reaches over the side away from the observer *)
Lemma far_range D r0 r1 t0 t1 : 0 < D < r1 -> 0 <= r0 <= r1 -> 0 <= t0 <= PI -> PI <= t1 <= 2 * PI ->
  (0 < t0 /\ t1 < 2 * PI \/ D < r0) ->
  is_range (sees D r0 r1 t0 t1) (delta D r1 t0) (2 * PI - delta D r1 (2 * PI - t1)).
Proof.
  intros HD Hr H0 H1 Hn. pose proof PI_RGT_0 as P.
  assert (U := upper_range D r0 r1 t0 PI HD Hr ltac:(lra) ltac:(lra)).
  assert (L := lower_range D r0 r1 (2 * PI - t1) PI HD Hr ltac:(lra) ltac:(lra)).
  rewrite delta_PI in U, L by lra.
  pose proof (delta_bounds D r0 t0 ltac:(lra) ltac:(lra)). pose proof (delta_bounds D r0 (2 * PI - t1) ltac:(lra) ltac:(lra)).
  pose proof (delta_bounds D r1 t0 ltac:(lra) ltac:(lra)). pose proof (delta_bounds D r1 (2 * PI - t1) ltac:(lra) ltac:(lra)).
  rewrite Rmax_right in U, L by lra.
  apply (range_shift _ _ _ 1) in L.
  replace (- PI + 2 * PI * 1) with PI in L by lra. replace (- delta D r1 (2 * PI - t1) + 2 * PI * 1) with (2 * PI - delta D r1 (2 * PI - t1)) in L by lra.
  eapply range_ext; [|eapply range_union; [|exact U|exact L]]; [|lra].
  intros th. cbv beta. rewrite (sees_split D r0 r1 t0 PI t1 th) by lra.
  rewrite (sees_turn D r0 r1 (- PI) (- (2 * PI - t1)) 1 th).
  replace (- PI + 2 * PI * 1) with PI by lra. now replace (- (2 * PI - t1) + 2 * PI * 1) with t1 by lra.
Qed.
(** the sector reaches over the side of the observer, who is closer than the inner radius *)
Lemma near_range D r0 r1 t0 t1 : 0 < D < r0 -> r0 <= r1 -> - PI <= t0 <= 0 -> 0 <= t1 <= PI ->
  is_range (sees D r0 r1 t0 t1) (- delta D r0 (- t0)) (delta D r0 t1).
Proof.
  intros HD Hr H0 H1. pose proof PI_RGT_0 as P.
  assert (U := upper_range D r0 r1 0 t1 ltac:(lra) ltac:(lra) ltac:(lra) ltac:(lra)).
  assert (L := lower_range D r0 r1 0 (- t0) ltac:(lra) ltac:(lra) ltac:(lra) ltac:(lra)).
  rewrite !delta_0 in U, L by lra.
  pose proof (delta_bounds D r0 t1 ltac:(lra) ltac:(lra)). pose proof (delta_bounds D r0 (- t0) ltac:(lra) ltac:(lra)).
  rewrite Rmax_right in U, L by lra. rewrite Ropp_0, Ropp_involutive in L.
  eapply range_ext; [|eapply range_union; [|exact L|exact U]]; [|lra].
  intros th. cbv beta. now rewrite (sees_split D r0 r1 t0 0 t1 th) by lra.
Qed.
(** the sector reaches over both sides *)
Lemma both_range D r0 r1 t0 t1 : 0 < D < r0 -> r0 <= r1 -> - PI <= t0 <= 0 -> PI <= t1 <= 2 * PI -> t1 <= t0 + 2 * PI ->
  is_range (sees D r0 r1 t0 t1) (- delta D r0 (- t0)) (2 * PI - delta D r1 (2 * PI - t1)).
Proof.
  intros HD Hr H0 H1 H2. pose proof PI_RGT_0 as P.
  assert (N := near_range D r0 r1 t0 PI HD Hr H0 ltac:(lra)).
  assert (L := lower_range D r0 r1 (2 * PI - t1) PI ltac:(lra) ltac:(lra) ltac:(lra) ltac:(lra)).
  pose proof (delta_bounds D r0 (- t0) ltac:(lra) ltac:(lra)). pose proof (delta_bounds D r0 (2 * PI - t1) ltac:(lra) ltac:(lra)).
  pose proof (delta_bounds D r1 (2 * PI - t1) ltac:(lra) ltac:(lra)).
  rewrite delta_PI in N, L by lra. rewrite Rmax_right in L by lra.
  apply (range_shift _ _ _ 1) in L.
  replace (- PI + 2 * PI * 1) with PI in L by lra. replace (- delta D r1 (2 * PI - t1) + 2 * PI * 1) with (2 * PI - delta D r1 (2 * PI - t1)) in L by lra.
  eapply range_ext; [|eapply range_union; [|exact N|exact L]]; [|lra].
  intros th. cbv beta. rewrite (sees_split D r0 r1 t0 PI t1 th) by lra.
  rewrite (sees_turn D r0 r1 (- PI) (- (2 * PI - t1)) 1 th).
  replace (- PI + 2 * PI * 1) with PI by lra. now replace (- (2 * PI - t1) + 2 * PI * 1) with t1 by lra.
Qed.
Lemma both_range' D r0 r1 t0 t1 : 0 < D < r0 -> r0 <= r1 -> 0 <= t1 <= PI -> - 2 * PI <= t0 <= - PI -> t1 <= t0 + 2 * PI ->
  is_range (sees D r0 r1 t0 t1) (delta D r1 (t0 + 2 * PI) - 2 * PI) (delta D r0 t1).
Proof.
  intros HD Hr H1 H0 H2.
  assert (B := both_range D r0 r1 (- t1) (- t0) HD Hr ltac:(lra) ltac:(lra) ltac:(lra)).
  apply range_neg in B. rewrite !Ropp_involutive in B.
  replace (2 * PI - - t0) with (t0 + 2 * PI) in B by lra. replace (- (2 * PI - delta D r1 (t0 + 2 * PI))) with (delta D r1 (t0 + 2 * PI) - 2 * PI) in B by lra.
  eapply range_ext; [|exact B]. intros th. cbv beta. symmetry. apply sees_reflect.
Qed.
(** nothing on the far corner can hide: the two ends of [both_range] cover less than one and a half turns *)
Lemma both_length D r0 r1 t0 t1 : 0 < D < r0 -> r0 <= r1 -> - PI <= t0 <= 0 -> PI <= t1 <= 2 * PI -> t1 <= t0 + 2 * PI ->
  PI <= 2 * PI - delta D r1 (2 * PI - t1) + delta D r0 (- t0) < 3 * PI.
Proof.
  intros HD Hr H0 H1 H2. pose proof PI_RGT_0 as P.
  pose proof (delta_bounds D r0 (- t0) ltac:(lra) ltac:(lra)) as B0. pose proof (delta_bounds D r1 (2 * PI - t1) ltac:(lra) ltac:(lra)) as B1.
  split; [lra|]. destruct (Req_dec t1 (2 * PI)) as [->|N].
  - assert (t0 = 0) by lra. subst t0. rewrite Ropp_0, (delta_0 D r0) by lra. lra.
  - destruct (Req_dec (delta D r1 (2 * PI - t1)) 0) as [Z|Z]; [|lra]. exfalso.
    destruct (up_dir D r1 r1 (2 * PI - t1) (2 * PI - t1) ltac:(lra) ltac:(lra) ltac:(lra) ltac:(lra) r1 (2 * PI - t1) ltac:(lra) ltac:(lra)) as (p & Pp & X & Y).
    rewrite Z, sin_0 in Y. assert (sin (2 * PI - t1) = 0) by (apply (Rmult_eq_reg_l r1); lra).
    destruct (Req_dec t1 PI) as [->|].
    + replace (2 * PI - PI) with PI in Z by lra. rewrite delta_PI in Z by lra. lra.
    + pose proof (sin_gt_0 (2 * PI - t1) ltac:(lra) ltac:(lra)). lra.
Qed.
Lemma range_full P a b : a + 2 * PI <= b -> is_range P a b -> is_range P 0 (2 * PI).
Proof.
  intros L H th. rewrite (H th). pose proof PI2_pos as Q.
  assert (A : forall lo hi, lo + 2 * PI <= hi -> in_turn lo hi th).
  { intros lo hi K. pose proof (wrap_window lo (lo + 2 * PI) th ltac:(lra)) as W. destruct (wrap_same lo (lo + 2 * PI) th) as [k E].
    rewrite E in W. exists k. lra. }
  split; intros _; apply A; lra.
Qed.

(** ** an observer outside the outer radius: angles from the direction to the centre of the sector *)
Definition ang (D r t : R) : R := atan (r * sin t / (D - r * cos t)).
Lemma atan_le x y : x <= y -> atan x <= atan y.
Proof. intros [L | ->]; [left; now apply atan_increasing|lra]. Qed.
Lemma ang_le D r t r' t' : 0 < D - r * cos t -> 0 < D - r' * cos t' -> cross D r t r' t' <= 0 -> ang D r t <= ang D r' t'.
Proof.
  intros X X' C. apply atan_le. unfold cross in C.
  apply (Rmult_le_reg_r (D - r * cos t)); auto. apply (Rmult_le_reg_r (D - r' * cos t')); auto.
  replace (r * sin t / (D - r * cos t) * (D - r * cos t) * (D - r' * cos t')) with (r * sin t * (D - r' * cos t')) by (field; lra).
  replace (r' * sin t' / (D - r' * cos t') * (D - r * cos t) * (D - r' * cos t')) with (r' * sin t' * (D - r * cos t)) by (field; lra). lra.
Qed.
Lemma ang_dir D r t : 0 < D - r * cos t -> dir_of (r * cos t - D) (r * sin t) (PI - ang D r t).
Proof.
  intros X. pose proof (dir_exists (D - r * cos t) (r * sin t) ltac:(left; lra)) as (p & P & E1 & E2).
  unfold atan2, Rltb in E1, E2. destruct (Rlt_dec 0 (D - r * cos t)); [|lra]. fold (ang D r t) in E1, E2.
  exists p. rewrite cos_minus, sin_minus, cos_PI, sin_PI. repeat split; try lra.
Qed.
Lemma ang_sign D r t : 0 < D - r * cos t -> (0 <= r * sin t -> 0 <= ang D r t) /\ (r * sin t <= 0 -> ang D r t <= 0).
Proof.
  intros X. assert (0 < / (D - r * cos t)) by now apply Rinv_0_lt_compat. unfold ang, Rdiv. split; intros S.
  - apply Rle_trans with (atan 0); [rewrite atan_0; lra|]. apply atan_le. apply Rmult_le_pos; lra.
  - apply Rle_trans with (atan 0); [|rewrite atan_0; lra]. apply atan_le. nra.
Qed.

(** on an arc that does not contain the point where the line of sight touches it, an end sees furthest *)
Lemma arc_end D r tau t0 t t1 : 0 < D -> 0 <= r -> r = D * cos tau -> 0 <= tau <= PI / 2 ->
  tau < t0 -> t0 <= t <= t1 -> t1 <= tau + 2 * PI ->
  cross D r t r t1 <= 0 \/ cross D r t r t0 <= 0.
Proof.
  intros HD Hr E Ht H0 H H1. pose proof PI_RGT_0 as P.
  assert (F : forall t', tau <= t' -> r * cos ((t' - t) / 2) - D * cos ((t + t') / 2)
             = D * (2 * cos tau * sin ((t - tau) / 2) * sin ((t' - tau) / 2) + sin tau * sin ((t - tau) / 2 + (t' - tau) / 2))).
  { intros t' _. set (x := (t - tau) / 2). set (y := (t' - tau) / 2).
    replace ((t' - t) / 2) with (y - x) by (unfold x, y; lra). replace ((t + t') / 2) with (x + y + tau) by (unfold x, y; lra).
    rewrite E, (cos_plus (x + y)), (cos_minus y x), (cos_plus x y). ring. }
  rewrite !cross_arc, !F by lra.
  set (x := (t - tau) / 2). set (x0 := (t0 - tau) / 2). set (x1 := (t1 - tau) / 2).
  replace ((t1 - t) / 2) with (x1 - x) by (unfold x, x1; lra). replace ((t0 - t) / 2) with (- (x - x0)) by (unfold x, x0; lra).
  assert (B : 0 < x0 /\ x0 <= x <= x1 /\ x1 <= PI) by (unfold x, x0, x1; lra). clearbody x x0 x1.
  assert (S1 : 0 <= sin (x1 - x)) by (apply sin_ge_0; lra). assert (S0 : 0 <= sin (x - x0)) by (apply sin_ge_0; lra).
  assert (S01 : 0 <= sin (x1 - x0)) by (apply sin_ge_0; lra). assert (Sx : 0 <= sin x) by (apply sin_ge_0; lra).
  assert (Sx1 : 0 <= sin x1) by (apply sin_ge_0; lra).
  assert (St : 0 <= sin tau) by (apply sin_ge_0; lra).
  set (E1 := 2 * cos tau * sin x * sin x1 + sin tau * sin (x + x1)).
  set (E0 := 2 * cos tau * sin x * sin x0 + sin tau * sin (x + x0)).
  destruct (Rle_dec E1 0) as [G|G].
  { left. apply Rnot_lt_le. intros K. assert (0 <= 2 * r * sin (x1 - x)) by (apply Rmult_le_pos; lra). assert (D * E1 <= 0) by nra. nra. }
  destruct (Rle_dec 0 E0) as [G'|G'].
  { right. rewrite sin_neg. apply Rnot_lt_le. intros K. assert (0 <= 2 * r * sin (x - x0)) by (apply Rmult_le_pos; lra). assert (0 <= D * E0) by (apply Rmult_le_pos; lra). nra. }
  exfalso. apply Rnot_le_lt in G, G'.
  assert (Q : E1 * sin x0 - E0 * sin x1 = - (sin tau * sin x * sin (x1 - x0))).
  { unfold E1, E0. rewrite !sin_plus, sin_minus. ring. }
  assert (0 <= sin tau * sin x * sin (x1 - x0)) by (apply Rmult_le_pos; auto; apply Rmult_le_pos; auto).
  assert (Sx0 : 0 < sin x0 \/ sin x0 = 0 /\ x0 = PI).
  { destruct (Req_dec x0 PI) as [->|]; [right; split; auto; apply sin_PI|left; apply sin_gt_0; lra]. }
  destruct Sx0 as [Sx0|[Z0 Z]].
  - assert (0 < E1 * sin x0) by now apply Rmult_lt_0_compat. assert (0 <= - E0 * sin x1) by (apply Rmult_le_pos; lra). lra.
  - assert (x = PI) by lra. assert (x1 = PI) by lra. subst x x1. unfold E1 in G. rewrite sin_PI in G.
    replace (PI + PI) with (2 * PI) in G by lra. rewrite sin_2PI in G. lra.
Qed.

Section Outer.
Variables D r0 r1 t0 t1 : R.
Hypothesis HD : 0 < D.
Hypothesis Hr : 0 <= r0 <= r1 /\ r1 <= D.
Hypothesis Ht : t0 <= t1.
Hypothesis Hx : forall r t, r0 <= r <= r1 -> t0 <= t <= t1 -> 0 < D - r * cos t.

Lemma out_between r t r' t' phi : r0 <= r <= r1 -> t0 <= t <= t1 -> r0 <= r' <= r1 -> t0 <= t' <= t1 ->
  ang D r t <= phi <= ang D r' t' -> sees D r0 r1 t0 t1 (PI - phi).
Proof.
  intros R T R' T' B. pose proof PI_RGT_0 as P.
  destruct (Req_dec phi (ang D r t)) as [->|N1]; [exists r, t; repeat split; try lra; apply ang_dir; auto|].
  destruct (Req_dec phi (ang D r' t')) as [->|N2]; [exists r', t'; repeat split; try lra; apply ang_dir; auto|].
  assert (B1 : - PI / 2 < ang D r t < PI / 2) by apply atan_bound. assert (B2 : - PI / 2 < ang D r' t' < PI / 2) by apply atan_bound.
  assert (C : 0 < cos phi) by (apply cos_gt_0; lra).
  set (f := fun s => cos phi * (((1 - s) * r + s * r') * sin ((1 - s) * t + s * t'))
                     - sin phi * (D - ((1 - s) * r + s * r') * cos ((1 - s) * t + s * t'))).
  assert (Cf : continuity f) by (unfold f; reg).
  destruct (ang_dir D r t ltac:(auto)) as (p & Pp & X & Y). destruct (ang_dir D r' t' ltac:(auto)) as (p' & Pp' & X' & Y').
  rewrite cos_minus, sin_minus, cos_PI, sin_PI in *.
  assert (F0 : f 0 < 0).
  { unfold f. replace ((1 - 0) * r + 0 * r') with r by lra. replace ((1 - 0) * t + 0 * t') with t by lra.
    replace (D - r * cos t) with (- (r * cos t - D)) by lra. rewrite X, Y.
    pose proof (sin_gt_0 (phi - ang D r t) ltac:(lra) ltac:(lra)) as S. rewrite sin_minus in S. nra. }
  assert (F1 : 0 < f 1).
  { unfold f. replace ((1 - 1) * r + 1 * r') with r' by lra. replace ((1 - 1) * t + 1 * t') with t' by lra.
    replace (D - r' * cos t') with (- (r' * cos t' - D)) by lra. rewrite X', Y'.
    pose proof (sin_gt_0 (ang D r' t' - phi) ltac:(lra) ltac:(lra)) as S. rewrite sin_minus in S. nra. }
  destruct (IVT f 0 1 Cf ltac:(lra) F0 F1) as (s & Bs & Z). unfold f in Z.
  set (rs := (1 - s) * r + s * r') in *. set (ts := (1 - s) * t + s * t') in *.
  assert (Rs : r0 <= rs <= r1) by (unfold rs; split; nra). assert (Ts : t0 <= ts <= t1) by (unfold ts; split; nra).
  exists rs, ts. split; [auto|]. split; [auto|].
  replace (phi) with (ang D rs ts); [apply ang_dir; auto|].
  unfold ang. replace (rs * sin ts / (D - rs * cos ts)) with (tan phi); [apply atan_tan; lra|].
  unfold tan. specialize (Hx rs ts Rs Ts). apply (Rmult_eq_reg_r (cos phi * (D - rs * cos ts))); [|nra].
  field_simplify; lra.
Qed.
Lemma out_seen th : sees D r0 r1 t0 t1 th -> exists r t k, r0 <= r <= r1 /\ t0 <= t <= t1 /\ th = PI - ang D r t + 2 * PI * IZR k.
Proof.
  intros (r & t & R & T & H). destruct (dir_turn _ _ _ _ (ang_dir D r t (Hx r t R T)) H) as [k K]. now exists r, t, k.
Qed.
Lemma outer_range lo hi : (forall r t, r0 <= r <= r1 -> t0 <= t <= t1 -> lo <= ang D r t <= hi) ->
  (exists r t, r0 <= r <= r1 /\ t0 <= t <= t1 /\ ang D r t = lo) ->
  (exists r t, r0 <= r <= r1 /\ t0 <= t <= t1 /\ ang D r t = hi) ->
  is_range (sees D r0 r1 t0 t1) (PI - hi) (PI - lo).
Proof.
  intros B (r & t & R & T & L) (r' & t' & R' & T' & H) th. split.
  - intros S. destruct (out_seen th S) as (a & b & k & Ra & Tb & ->). exists (- k)%Z. rewrite opp_IZR.
    specialize (B a b Ra Tb). lra.
  - intros [k K]. assert (G := out_between r t r' t' (PI - (th + 2 * PI * IZR k)) R T R' T' ltac:(lra)).
    apply (sees_shift _ _ _ _ _ _ (- k)%Z) in G. rewrite opp_IZR in G.
    replace (PI - (PI - (th + 2 * PI * IZR k)) + 2 * PI * - IZR k) with th in G by lra. exact G.
Qed.

(** no place is seen beyond the tangent *)
Lemma out_tangent r t : r0 <= r <= r1 -> t0 <= t <= t1 -> ang D r t <= asin (r1 / D).
Proof.
  intros R T. pose proof PI_RGT_0 as P. pose proof (Hx r t R T) as X.
  assert (Q : 0 <= r1 / D <= 1).
  { split; [apply Rmult_le_pos; [lra|left; now apply Rinv_0_lt_compat]|]. apply (Rmult_le_reg_r D); auto. field_simplify; lra. }
  pose proof (asin_bound (r1 / D)) as B. assert (S : sin (asin (r1 / D)) = r1 / D) by (apply sin_asin; lra).
  set (b := asin (r1 / D)) in *.
  assert (0 <= b). { apply Rnot_lt_le. intros N. pose proof (sin_lt_0_var b ltac:(lra) N). lra. }
  destruct (Req_dec b (PI / 2)) as [->|N]; [pose proof (atan_bound (r * sin t / (D - r * cos t))); unfold ang; lra|].
  assert (C : 0 < cos b) by (apply cos_gt_0; lra).
  rewrite <- (atan_tan b) by lra. apply atan_le. unfold tan.
  apply (Rmult_le_reg_r (D - r * cos t)); auto. apply (Rmult_le_reg_r (cos b)); auto.
  replace (r * sin t / (D - r * cos t) * (D - r * cos t) * cos b) with (r * sin t * cos b) by (field; lra).
  replace (sin b / cos b * (D - r * cos t) * cos b) with (sin b * D - r * (cos t * sin b)) by (field; lra).
  assert (E : sin b * D = r1) by (rewrite S; field; lra). rewrite E.
  pose proof (SIN_bound (t + b)) as Sb. rewrite sin_plus in Sb. nra.
Qed.
Lemma tangent_at : D <> r1 -> ang D r1 (acos (r1 / D)) = asin (r1 / D).
Proof.
  intros N. pose proof PI_RGT_0 as P.
  assert (Q : 0 <= r1 / D < 1).
  { split; [apply Rmult_le_pos; [lra|left; now apply Rinv_0_lt_compat]|]. apply (Rmult_lt_reg_r D); auto. field_simplify; lra. }
  pose proof (asin_bound_lt (r1 / D) ltac:(lra)) as B. unfold ang. rewrite <- (atan_tan (asin (r1 / D))) by lra. f_equal.
  unfold tan. rewrite sin_acos, cos_acos, sin_asin, cos_asin by lra.
  set (q := r1 / D) in *. assert (r1 = q * D) by (unfold q; field; lra).
  assert (L : 0 < 1 - q²) by (unfold Rsqr; nra). pose proof (sqrt_lt_R0 _ L) as Sq.
  assert (E : sqrt (1 - q²) * sqrt (1 - q²) = 1 - q * q) by (rewrite sqrt_sqrt; [unfold Rsqr; ring|lra]).
  set (s := sqrt (1 - q²)) in *. rewrite H.
  replace (D - q * D * q) with (D * (s * s)) by (rewrite E; ring). field. lra.
Qed.
(** away from the tangent, some corner is seen furthest *)
Lemma out_corner r t : (forall k, ~ t0 <= acos (r1 / D) + 2 * PI * IZR k <= t1) -> r0 <= r <= r1 -> t0 <= t <= t1 ->
  exists a b, (a = r0 \/ a = r1) /\ (b = t0 \/ b = t1) /\ ang D r t <= ang D a b.
Proof.
  intros N R T. pose proof PI_RGT_0 as P.
  assert (Q : forall q, r0 <= q <= r1 -> 0 <= q / D <= 1).
  { intros q Hq. split; [apply Rmult_le_pos; [lra|left; now apply Rinv_0_lt_compat]|]. apply (Rmult_le_reg_r D); auto. field_simplify; lra. }
  assert (A : forall q, r0 <= q <= r1 -> 0 <= acos (q / D) <= PI / 2 /\ q = D * cos (acos (q / D))).
  { intros q Hq. specialize (Q q Hq). rewrite cos_acos by lra. split; [|field; lra].
    pose proof (acos_bound (q / D)). split; [lra|]. apply Rnot_lt_le. intros L.
    pose proof (cos_lt_0 _ L ltac:(lra)) as C. rewrite cos_acos in C by lra. lra. }
  set (tau := acos (r1 / D)) in *. destruct (A r1 ltac:(lra)) as [At Ar]. fold tau in At, Ar.
  (* one turn without the tangent *)
  assert (W : exists k, tau + 2 * PI * IZR k < t0 /\ t1 < tau + 2 * PI * IZR k + 2 * PI).
  { destruct (archimed ((t0 - tau) / (2 * PI))) as [U V]. set (z := up ((t0 - tau) / (2 * PI))) in *.
    assert (U' : t0 - tau < IZR z * (2 * PI)).
    { apply (Rmult_lt_compat_r (2 * PI)) in U; [|lra]. replace ((t0 - tau) / (2 * PI) * (2 * PI)) with (t0 - tau) in U by (field; lra). lra. }
    assert (V' : (IZR z - 1) * (2 * PI) <= t0 - tau).
    { assert (IZR z - 1 <= (t0 - tau) / (2 * PI)) by lra. apply (Rmult_le_compat_r (2 * PI)) in H; [|lra].
      replace ((t0 - tau) / (2 * PI) * (2 * PI)) with (t0 - tau) in H by (field; lra). lra. }
    exists (z - 1)%Z. rewrite minus_IZR. pose proof (N (z - 1)%Z) as N1. pose proof (N z) as N2. rewrite minus_IZR in N1.
    split; [|lra]. destruct (Rle_dec t0 (tau + 2 * PI * (IZR z - 1))); lra. }
  destruct W as (k & W0 & W1).
  assert (Sh : forall q s, ang D q (s - 2 * PI * IZR k) = ang D q s).
  { intros q s. unfold ang. replace (s - 2 * PI * IZR k) with (s + 2 * PI * IZR (- k)) by (rewrite opp_IZR; lra). now rewrite cos_shift', sin_shift'. }
  assert (Hx' : forall q s, r0 <= q <= r1 -> t0 - 2 * PI * IZR k <= s <= t1 - 2 * PI * IZR k -> 0 < D - q * cos s).
  { intros q s Hq Hs. replace (cos s) with (cos (s + 2 * PI * IZR k)) by apply cos_shift'. apply Hx; lra. }
  set (u0 := t0 - 2 * PI * IZR k) in *. set (u1 := t1 - 2 * PI * IZR k) in *. set (u := t - 2 * PI * IZR k).
  assert (Tu : u0 <= u <= u1) by (unfold u, u0, u1; lra).
  assert (G : exists a b, (a = r0 \/ a = r1) /\ (b = u0 \/ b = u1) /\ ang D r u <= ang D a b).
  { destruct (Rle_dec 0 (sin u)) as [Su|Su].
    - assert (ang D r u <= ang D r1 u).
      { apply ang_le; try (apply Hx'; auto; lra). rewrite cross_radial. assert (0 <= D * sin u) by (apply Rmult_le_pos; lra). nra. }
      destruct (arc_end D r1 tau u0 u u1 HD ltac:(lra) Ar At ltac:(unfold u0; lra) Tu ltac:(unfold u1; lra)) as [C|C].
      + exists r1, u1. split; [auto|split; [auto|]]. eapply Rle_trans; [eassumption|]. apply ang_le; auto; apply Hx'; lra.
      + exists r1, u0. split; [auto|split; [auto|]]. eapply Rle_trans; [eassumption|]. apply ang_le; auto; apply Hx'; lra.
    - apply Rnot_le_lt in Su.
      assert (ang D r u <= ang D r0 u).
      { apply ang_le; try (apply Hx'; auto; lra). rewrite cross_radial. assert (D * sin u <= 0) by nra. nra. }
      assert (Nu : ang D r0 u <= 0). { apply (ang_sign D r0 u); [apply Hx'; lra|]. nra. }
      destruct (Rle_dec 0 (sin u0)) as [S0|S0].
      { exists r0, u0. split; [auto|split; [auto|]]. assert (0 <= ang D r0 u0) by (apply ang_sign; [apply Hx'; lra|apply Rmult_le_pos; lra]). lra. }
      destruct (Rle_dec 0 (sin u1)) as [S1|S1].
      { exists r0, u1. split; [auto|split; [auto|]]. assert (0 <= ang D r0 u1) by (apply ang_sign; [apply Hx'; lra|apply Rmult_le_pos; lra]). lra. }
      apply Rnot_le_lt in S0, S1.
      assert (Low : forall s, sin s < 0 -> tau < s < tau + 2 * PI -> PI < s < 2 * PI).
      { intros s Hs B. destruct (Rle_dec s PI) as [L|L].
        - pose proof (sin_ge_0 s ltac:(lra) L). lra.
        - split; [lra|]. destruct (Rlt_dec s (2 * PI)) as [|L']; auto. exfalso.
          pose proof (sin_ge_0 (s - 2 * PI) ltac:(lra) ltac:(lra)) as Z. replace (s - 2 * PI) with (s + 2 * PI * IZR (-1)) in Z by (simpl; lra).
          rewrite sin_shift' in Z. lra. }
      pose proof (Low u0 S0 ltac:(unfold u0; lra)). pose proof (Low u1 S1 ltac:(unfold u1; lra)).
      destruct (A r0 ltac:(lra)) as [A0 A0'].
      destruct (arc_end D r0 (acos (r0 / D)) u0 u u1 HD ltac:(lra) A0' A0 ltac:(lra) Tu ltac:(lra)) as [C|C].
      + exists r0, u1. split; [auto|split; [auto|]]. eapply Rle_trans; [eassumption|]. apply ang_le; auto; apply Hx'; lra.
      + exists r0, u0. split; [auto|split; [auto|]]. eapply Rle_trans; [eassumption|]. apply ang_le; auto; apply Hx'; lra. }
  destruct G as (a & b & Ha & Hb & G). unfold u in G. rewrite Sh in G.
  destruct Hb as [-> | ->]; [exists a, t0|exists a, t1]; split; auto; split; auto; [unfold u0 in G|unfold u1 in G]; rewrite Sh in G; exact G.
Qed.
End Outer.
Lemma ang_neg D r t : ang D r (- t) = - ang D r t.
Proof. unfold ang. rewrite cos_neg, sin_neg, <- atan_opp. f_equal. unfold Rdiv. ring. Qed.
