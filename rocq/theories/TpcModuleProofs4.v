(** Proofs about a single TPC module: extents of a polar layout in a polar TPC. *)
From Coq Require Import ZArith List String Bool Reals Lra Lia.
From Flocq Require Import Core.Raux.
From Verif Require Import Base RBase Trig DiskBase DiskSpec DiskProofs TpcModuleModel TpcModel TpcSpec
  TpcModuleProofs TpcModuleProofs2 TpcModuleProofs3.
From Verif Require RectSpec.
Import ListNotations.
Open Scope R_scope.

(** ** without offset *)
Lemma wrap_up_same : forall lo a, same_angle (wrap_up lo a) a.
Proof. intros. unfold wrap_up. eexists. reflexivity. Qed.
Lemma wrap_down_same : forall hi a, same_angle (wrap_down hi a) a.
Proof. intros. unfold wrap_down. exists (- Z.max 0 (Zceil ((a - hi) / (2 * PI))))%Z. rewrite opp_IZR. lra. Qed.
Lemma same_near : forall a b, same_angle a b -> -(2 * PI) < a - b < 2 * PI -> a = b.
Proof.
  intros a b [k E] D. pose proof PI2_pos as P2. assert (K : -1 < IZR k < 1) by (split; nra).
  destruct K as [K1 K2]. apply (lt_IZR (-1) k) in K1. apply (lt_IZR k 1) in K2. assert (k = 0)%Z by lia. subst. simpl. lra.
Qed.
Lemma same_shift : forall a b c, same_angle a b -> same_angle (a + c) (b + c).
Proof. intros a b c [k H]. exists k. lra. Qed.

(** force the upper angle into a turn, then the lower one into the turn below *)
Lemma centred_pair : forall lo hi, 0 < hi - lo < 2 * PI ->
  let hi' := wrap_up 0 (wrap_down (2 * PI) hi) in
  let lo' := wrap_up (hi' - 2 * PI) (wrap_down hi' lo) in
  0 <= hi' <= 2 * PI /\ same_angle hi' hi /\ hi' - lo' = hi - lo.
Proof.
  intros lo hi W hi' lo'. pose proof PI2_pos as P2.
  assert (A : 0 <= hi' <= 2 * PI).
  { unfold hi'. pose proof (wrap_down_bounds (2 * PI) hi) as [B1 _].
    destruct (Rle_lt_dec 0 (wrap_down (2 * PI) hi)) as [C|C].
    - rewrite wrap_up_id by auto. lra.
    - pose proof (wrap_up_bounds 0 (wrap_down (2 * PI) hi)) as [D1 D2]. specialize (D2 C). lra. }
  assert (B : same_angle hi' hi) by (eapply same_trans; [apply wrap_up_same|apply wrap_down_same]).
  split; [exact A|split; [exact B|]].
  assert (C : same_angle lo' lo) by (eapply same_trans; [apply wrap_up_same|apply wrap_down_same]).
  assert (D : hi' - 2 * PI <= lo' <= hi').
  { unfold lo'. pose proof (wrap_down_bounds hi' lo) as [B1 _].
    destruct (Rle_lt_dec (hi' - 2 * PI) (wrap_down hi' lo)) as [E|E].
    - rewrite wrap_up_id by auto. lra.
    - pose proof (wrap_up_bounds (hi' - 2 * PI) (wrap_down hi' lo)) as [D1 D2]. specialize (D2 E). lra. }
  assert (E : lo' = hi' - (hi - lo)).
  { apply same_near; [|lra]. eapply same_trans; [exact C|]. apply same_sym.
    replace lo with (hi + (- (hi - lo))) at 2 by lra. replace (hi' - (hi - lo)) with (hi' + - (hi - lo)) by lra.
    now apply same_shift. }
  lra.
Qed.

Lemma centred_extent : forall id p h m l, made p POLAR id h m -> fst (last_offset h) = 0 ->
  sane_extent POLAR l -> 0 < e3 l - e2 l < 2 * PI ->
  exists e, extent_pp m l = Ok e /\ e0 e = e0 l /\ e1 e = e1 l /\ e3 e - e2 e = e3 l - e2 l /\ 0 <= e3 e <= 2 * PI /\
    forall q, area POLAR l (asked POLAR h) q <-> area POLAR e (mkPl 0 0 0 false) q.
Proof.
  intros id p h m l M O S W. unfold extent_pp.
  assert (O0 : m_off0 m = 0) by (pose proof (md_off _ _ _ _ _ M) as X; rewrite <- X in O; exact O).
  rewrite O0. destruct (Reqb_spec 0 0) as [_|]; [|lra]. eexists. split; [reflexivity|].
  unfold extent_pp_centred. cbn [e0 e1 e2 e3].
  assert (PZ : Rltb 0 (m_z m) = negb (negative (last_z h))) by (rewrite Rltb_Rleb, (md_neg _ _ _ _ _ M); reflexivity).
  rewrite PZ, (md_angle _ _ _ _ _ M). set (a := last_angle h) in *. set (n := negative (last_z h)) in *.
  set (lo := if negb n then e2 l + a else PI - e3 l - a). set (hi := if negb n then e3 l + a else PI - e2 l - a).
  assert (WW : hi - lo = e3 l - e2 l) by (unfold hi, lo; destruct n; cbn [negb]; lra).
  assert (W' : 0 < hi - lo < 2 * PI) by lra.
  destruct (centred_pair lo hi W') as (A & B & C). cbv zeta in A, B, C.
  set (hi' := wrap_up 0 (wrap_down (2 * PI) hi)) in *. set (lo' := wrap_up (hi' - 2 * PI) (wrap_down hi' lo)) in *.
  split; [reflexivity|split; [reflexivity|split; [lra|split; [lra|]]]].
  (* the mounted point at (r,t) is the point at (r,t') *)
  assert (MP : forall r t, mount (asked POLAR h) (point POLAR (r, t)) =
    (r * cos (if n then PI - t - a else t + a), r * sin (if n then PI - t - a else t + a))).
  { intros r t. unfold mount, asked. cbn [pl_angle pl_x pl_y pl_neg]. rewrite !point_polar. cbn [fst snd].
    fold a. fold n. rewrite O. destruct n.
    - replace (PI - t - a) with (PI - (t + a)) by lra. rewrite Rtrigo_facts.cos_pi_minus, Rtrigo_facts.sin_pi_minus, cos_plus, sin_plus.
      f_equal; ring.
    - rewrite cos_plus, sin_plus. f_equal; ring. }
  assert (M0 : forall q, mount (mkPl 0 0 0 false) q = q).
  { intros [x y]. unfold mount. cbn [pl_angle pl_x pl_y pl_neg fst snd]. rewrite cos_0, sin_0. f_equal; ring. }
  intros q. unfold area. cbn [e0 e1 e2 e3]. split.
  - intros (r & t & Hr & Ht & ->). rewrite MP. set (u := if n then PI - t - a else t + a).
    exists r, (u + (hi' - hi)). split; [exact Hr|]. split.
    + unfold u, lo, hi in *. destruct n; cbn [negb] in *; lra.
    + rewrite M0, point_polar. cbn [fst snd]. apply same_point. apply same_sym.
      destruct B as [k B]. exists k. lra.
  - intros (r & t & Hr & Ht & ->). rewrite M0, point_polar. cbn [fst snd]. set (u := t - (hi' - hi)).
    exists r, (if n then PI - u - a else u - a). split; [exact Hr|]. split.
    + unfold u, lo, hi in *. destruct n; cbn [negb] in *; lra.
    + rewrite MP. replace (if n then PI - (if n then PI - u - a else u - a) - a else (if n then PI - u - a else u - a) + a) with u
        by (destruct n; lra).
      apply same_point. destruct B as [k B]. exists k. unfold u. lra.
Qed.

(** A full ring turned by less than a turn gets an extent of zero width. *)
Lemma centred_full_circle : forall id p h m l, made p POLAR id h m -> fst (last_offset h) = 0 ->
  e2 l = 0 -> e3 l = 2 * PI -> negative (last_z h) = false -> 0 < last_angle h < 2 * PI ->
  exists e, extent_pp m l = Ok e /\ e2 e = e3 e.
Proof.
  intros id p h m l M O L2 L3 N A. unfold extent_pp.
  assert (O0 : m_off0 m = 0) by (pose proof (md_off _ _ _ _ _ M) as X; rewrite <- X in O; exact O).
  rewrite O0. destruct (Reqb_spec 0 0) as [_|]; [|lra]. eexists. split; [reflexivity|].
  unfold extent_pp_centred. cbn [e2 e3].
  assert (PZ : Rltb 0 (m_z m) = true) by (rewrite Rltb_Rleb, (md_neg _ _ _ _ _ M), N; reflexivity).
  rewrite PZ, (md_angle _ _ _ _ _ M), L2, L3. set (a := last_angle h) in *.
  rewrite (wrap_down_step (2 * PI) (2 * PI + a)) by lra. replace (2 * PI + a - 2 * PI) with a by lra.
  rewrite (wrap_down_id (2 * PI) a) by lra. rewrite (wrap_up_id 0 a) by lra. rewrite Rplus_0_l.
  rewrite (wrap_down_id a a) by lra. rewrite wrap_up_id by lra. reflexivity.
Qed.

(** ** with offset: the range of the radius *)
Lemma fmod_range : forall x, 0 <= x -> 0 <= fmod2pi x < 2 * PI /\ same_angle (fmod2pi x) x.
Proof.
  intros x H. pose proof PI2_pos. unfold fmod2pi. set (y := x / (2 * PI)).
  assert (Hy : 0 <= y) by (apply Rmult_le_pos; [lra|left; now apply Rinv_0_lt_compat]).
  assert (E : x = 2 * PI * y) by (unfold y; field; lra).
  rewrite Ztrunc_floor by auto. pose proof (Zfloor_lb y). pose proof (Zfloor_ub y). split.
  - split; nra.
  - exists (- Zfloor y)%Z. rewrite opp_IZR. lra.
Qed.
Lemma inactive_turn : forall l phi, two_turns l -> e2 l <= e3 l <= e2 l + 2 * PI -> 0 <= phi < 2 * PI -> in_active l phi = false ->
  exists k, 2 * PI * IZR k <= e2 l - phi /\ e3 l - phi <= 2 * PI * IZR k + 2 * PI.
Proof.
  intros l phi [T1 T2] S Hp A. pose proof PI2_pos.
  assert (Hoff : other_turn phi = phi - 2 * PI) by (unfold other_turn; destruct (Rltb_spec phi 0); lra).
  unfold in_active, in_open in A. rewrite Hoff in A. rewrite orb_false_iff, !andb_false_iff, !Rltb_false in A.
  destruct A as [A1 A2]. destruct (Rle_dec phi (e2 l)) as [B|B].
  - exists 0%Z. simpl. lra.
  - destruct A1 as [A1|A1]; [contradiction|]. destruct A2 as [A2|A2].
    + exists (-1)%Z. simpl. lra.
    + exists (-2)%Z. simpl. lra.
Qed.
Lemma active_dir : forall l phi, 0 <= phi < 2 * PI -> in_active l phi = true ->
  exists t, e2 l < t < e3 l /\ same_angle t phi.
Proof.
  intros l phi Hp A. pose proof PI2_pos.
  assert (Hoff : other_turn phi = phi - 2 * PI) by (unfold other_turn; destruct (Rltb_spec phi 0); lra).
  unfold in_active, in_open in A. rewrite Hoff in A. rewrite orb_true_iff, !andb_true_iff, !Rltb_true in A.
  destruct A as [A|A].
  - exists phi. split; [lra|apply same_refl].
  - exists (phi - 2 * PI). split; [lra|apply same_minus].
Qed.

Lemma pdist_same_angle : forall r a a' r' b, same_angle a a' -> pdist r a r' b = pdist r a' r' b.
Proof. intros. rewrite !pdist_eq. now rewrite (same_angle_cos a a' b). Qed.
Lemma pdist_same_angle' : forall r a r' b b', same_angle b b' -> pdist r a r' b = pdist r a r' b'.
Proof.
  intros r a r' b b' H. rewrite !pdist_eq. f_equal. f_equal. f_equal.
  rewrite <- (cos_neg (a - b)), <- (cos_neg (a - b')). replace (- (a - b)) with (b - a) by lra.
  replace (- (a - b')) with (b' - a) by lra. now apply same_angle_cos.
Qed.
Lemma pdist_mono : forall r r' a b b', 0 <= r -> 0 <= r' -> cos (a - b) <= cos (a - b') -> pdist r a r' b' <= pdist r a r' b.
Proof.
  intros. rewrite !pdist_eq. apply sqrt_le_1_alt. assert (0 <= r * r') by (apply Rmult_le_pos; auto). nra.
Qed.

Lemma foot_is : forall (l : ext4) o edge, foot_radius o edge = fst o * cos (snd o - edge).
Proof. intros. unfold foot_radius. rewrite cos_minus. reflexivity. Qed.
(** the foot of the perpendicular on an edge: its distance, and the corner it coincides with *)
Lemma foot_sq : forall o edge, foot_distance o edge = pdist (fst o) (snd o) (foot_radius o edge) edge.
Proof.
  intros [r phi] edge. unfold foot_distance, foot_radius. cbn [fst snd]. rewrite pdist_eq.
  replace (r * (cos phi * sin edge - sin phi * cos edge)) with (- (r * sin (phi - edge))) by (rewrite sin_minus; ring).
  rewrite <- cos_minus. rewrite Rabs_Ropp, <- sqrt_Rsqr_abs. f_equal. unfold Rsqr.
  pose proof (sin2_cos2 (phi - edge)) as S. unfold Rsqr in S.
  set (c := cos (phi - edge)) in *. set (s := sin (phi - edge)) in *.
  transitivity (r * r * (s * s)); [ring|]. replace (s * s) with (1 - c * c) by lra. ring.
Qed.

Lemma pp_rMin_is : forall l o, sane_extent POLAR l -> two_turns l -> 0 <= fst o -> 0 <= snd o ->
  is_sector_dist (fst o) (snd o) (e0 l) (e1 l) (e2 l) (e3 l)
    (pp_rMin l o (pdist (fst o) (snd o) (e0 l) (e2 l)) (pdist (fst o) (snd o) (e0 l) (e3 l))
                 (pdist (fst o) (snd o) (e1 l) (e2 l)) (pdist (fst o) (snd o) (e1 l) (e3 l))).
Proof.
  intros l [r phi] (S1 & S2 & S3) T Hr Hphi. cbn [fst snd] in *. destruct (S3 eq_refl) as [S4 S5].
  destruct (fmod_range phi Hphi) as [F1 F2]. set (f := fmod2pi phi) in *. unfold pp_rMin. cbn [fst snd]. fold f.
  destruct (in_active l f) eqn:A.
  - destruct (active_dir l f F1 A) as (t & Ht & St).
    assert (ST : same_angle phi t) by (apply same_sym; eapply same_trans; eauto).
    assert (R' : forall r', pdist r phi r' t = Rabs (r - r')) by (intros; rewrite (pdist_same_angle _ _ t) by auto; apply pdist_same).
    assert (LB : forall r' p', 0 <= r' -> Rabs (r - r') <= pdist r phi r' p').
    { intros r' p' H'. rewrite <- (R' r'). apply pdist_mono; auto.
      destruct ST as [k ->]. replace (t + 2 * PI * IZR k - t) with (0 + 2 * PI * IZR k) by lra. rewrite cos_shift, cos_0. apply COS_bound. }
    destruct (Rltb_spec r (e0 l)); [|destruct (Rltb_spec (e1 l) r)]; split.
    + exists (e0 l), t. split; [lra|split; [lra|]]. rewrite R', Rabs_left; lra.
    + intros r' p' H1 H2. eapply Rle_trans; [|apply LB; lra]. rewrite Rabs_left; lra.
    + exists (e1 l), t. split; [lra|split; [lra|]]. rewrite R', Rabs_pos_eq; lra.
    + intros r' p' H1 H2. eapply Rle_trans; [|apply LB; lra]. rewrite Rabs_pos_eq; lra.
    + exists r, t. split; [lra|split; [lra|]]. rewrite R', Rminus_diag_eq, Rabs_R0; auto.
    + intros r' p' H1 H2. rewrite pdist_eq. apply sqrt_pos.
  - destruct (inactive_turn l f T ltac:(lra) F1 A) as (k & K1 & K2).
    set (c02 := pdist r phi (e0 l) (e2 l)). set (c03 := pdist r phi (e0 l) (e3 l)).
    set (c12 := pdist r phi (e1 l) (e2 l)). set (c13 := pdist r phi (e1 l) (e3 l)).
    rewrite !lower_min.
    set (m4 := Rmin (Rmin (Rmin c02 c03) c12) c13).
    assert (M4 : m4 <= c02 /\ m4 <= c03 /\ m4 <= c12 /\ m4 <= c13).
    { unfold m4. pose proof (Rmin_l (Rmin (Rmin c02 c03) c12) c13). pose proof (Rmin_r (Rmin (Rmin c02 c03) c12) c13).
      pose proof (Rmin_l (Rmin c02 c03) c12). pose proof (Rmin_r (Rmin c02 c03) c12). pose proof (Rmin_l c02 c03). pose proof (Rmin_r c02 c03). lra. }
    assert (M4' : m4 = c02 \/ m4 = c03 \/ m4 = c12 \/ m4 = c13) by (unfold m4, Rmin; repeat destruct (Rle_dec _ _); auto).
    clearbody m4.
    set (v := if Rltb (e0 l) r then foot_lower l (r, phi) (e3 l) (foot_lower l (r, phi) (e2 l) m4) else m4).
    (* attained *)
    assert (ATT : exists r' p', e0 l <= r' <= e1 l /\ e2 l <= p' <= e3 l /\ pdist r phi r' p' = v).
    { assert (A4 : exists r' p', e0 l <= r' <= e1 l /\ e2 l <= p' <= e3 l /\ pdist r phi r' p' = m4).
      { destruct M4' as [E|[E|[E|E]]]; rewrite E; unfold c02, c03, c12, c13;
          [exists (e0 l), (e2 l)|exists (e0 l), (e3 l)|exists (e1 l), (e2 l)|exists (e1 l), (e3 l)]; (split; [lra|split; [lra|reflexivity]]). }
      assert (STEP : forall edge x, e2 l <= edge <= e3 l ->
        (exists r' p', e0 l <= r' <= e1 l /\ e2 l <= p' <= e3 l /\ pdist r phi r' p' = x) ->
        exists r' p', e0 l <= r' <= e1 l /\ e2 l <= p' <= e3 l /\ pdist r phi r' p' = foot_lower l (r, phi) edge x).
      { intros edge x He Hx. unfold foot_lower.
        destruct (Rltb_spec (e0 l) (foot_radius (r, phi) edge)); cbn [andb]; [|exact Hx].
        destruct (Rltb_spec (foot_radius (r, phi) edge) (e1 l)); cbn [andb]; [|exact Hx].
        destruct (Rltb_spec (foot_distance (r, phi) edge) x); [|exact Hx].
        exists (foot_radius (r, phi) edge), edge. split; [lra|split; [lra|]]. rewrite foot_sq. reflexivity. }
      unfold v. destruct (Rltb (e0 l) r); [|exact A4]. apply STEP; [lra|]. apply STEP; [lra|exact A4]. }
    split; [exact ATT|].
    (* below everything: first along the two edges *)
    assert (FLE : forall edge x, foot_lower l (r, phi) edge x <= x).
    { intros edge x. unfold foot_lower. repeat rcase; cbn [andb]; lra. }
    assert (VM : v <= m4).
    { unfold v. destruct (Rltb (e0 l) r); [|lra].
      pose proof (FLE (e3 l) (foot_lower l (r, phi) (e2 l) m4)). pose proof (FLE (e2 l) m4). lra. }
    assert (VF : forall edge, edge = e2 l \/ edge = e3 l -> e0 l < foot_radius (r, phi) edge < e1 l -> v <= foot_distance (r, phi) edge).
    { intros edge He Hf. assert (HR : e0 l < r).
      { pose proof (COS_bound (phi - edge)) as CB. pose proof (foot_is l (r, phi) edge) as FI. cbn [fst snd] in FI. rewrite FI in Hf.
        nra. }
      unfold v. destruct (Rltb_spec (e0 l) r); [|lra].
      assert (FX : forall x, foot_lower l (r, phi) edge x <= foot_distance (r, phi) edge).
      { intros x. unfold foot_lower. destruct (Rltb_spec (e0 l) (foot_radius (r, phi) edge)); [|lra].
        destruct (Rltb_spec (foot_radius (r, phi) edge) (e1 l)); [|lra]. cbn [andb].
        destruct (Rltb_spec (foot_distance (r, phi) edge) x); lra. }
      destruct He as [-> | ->].
      - eapply Rle_trans; [apply FLE|apply FX].
      - apply FX. }
    assert (EDGE : forall edge r', edge = e2 l \/ edge = e3 l -> e0 l <= r' <= e1 l -> v <= pdist r phi r' edge).
    { intros edge r' He Hr'. pose proof (foot_is l (r, phi) edge) as FI. cbn [fst snd] in FI.
      set (X := foot_radius (r, phi) edge) in *.
      assert (PD : forall x, pdist r phi x edge = sqrt (r * r + x * x - 2 * x * X)).
      { intros x. rewrite pdist_eq. f_equal. rewrite FI. ring. }
      assert (C0 : v <= pdist r phi (e0 l) edge) by (destruct He as [-> | ->]; fold c02 c03; lra).
      assert (C1 : v <= pdist r phi (e1 l) edge) by (destruct He as [-> | ->]; fold c12 c13; lra).
      destruct (Rle_lt_dec X (e0 l)) as [B|B].
      - eapply Rle_trans; [exact C0|]. rewrite !PD. apply sqrt_le_1_alt. nra.
      - destruct (Rle_lt_dec (e1 l) X) as [D|D].
        + eapply Rle_trans; [exact C1|]. rewrite !PD. apply sqrt_le_1_alt. nra.
        + eapply Rle_trans; [apply (VF edge He); auto|]. rewrite foot_sq. cbn [fst snd]. fold X. rewrite !PD. apply sqrt_le_1_alt.
          pose proof (Rle_0_sqr (r' - X)) as Q. unfold Rsqr in Q. lra. }
    intros r' p' H1 H2.
    pose proof (cos_max_turn k (e2 l - f) (e3 l - f) (p' - f) K1 K2 ltac:(lra)) as C.
    assert (CF : forall x, cos (x - f) = cos (phi - x)).
    { intros x. rewrite <- (cos_neg (x - f)). replace (- (x - f)) with (f - x) by lra. now apply same_angle_cos. }
    rewrite !CF in C. destruct (Rle_dec (cos (phi - e2 l)) (cos (phi - e3 l))).
    + rewrite Rmax_right in C by lra. eapply Rle_trans; [apply (EDGE (e3 l) r'); auto|]. apply pdist_mono; lra.
    + rewrite Rmax_left in C by lra. eapply Rle_trans; [apply (EDGE (e2 l) r'); auto|]. apply pdist_mono; lra.
Qed.

Lemma pp_rMax_is : forall l o, sane_extent POLAR l -> two_turns l -> 0 <= fst o -> 0 <= snd o ->
  let M := pp_rMax l o (pdist (fst o) (snd o) (e0 l) (e2 l)) (pdist (fst o) (snd o) (e0 l) (e3 l))
                 (pdist (fst o) (snd o) (e1 l) (e2 l)) (pdist (fst o) (snd o) (e1 l) (e3 l)) in
  (exists r' p', e0 l <= r' <= e1 l /\ e2 l <= p' <= e3 l /\ pdist (fst o) (snd o) r' p' = M) /\
  (forall r' p', e0 l <= r' <= e1 l -> e2 l <= p' <= e3 l -> pdist (fst o) (snd o) r' p' <= M).
Proof.
  intros l [r phi] (S1 & S2 & S3) T Hr Hphi. cbn [fst snd] in *. destruct (S3 eq_refl) as [S4 S5]. pose proof PI_RGT_0.
  destruct (fmod_range (phi + PI) ltac:(lra)) as [F1 F2]. set (f := fmod2pi (phi + PI)) in *. unfold pp_rMax. cbn [fst snd]. fold f.
  assert (CF : forall x, cos (phi - x) = - cos (x - f)).
  { intros x. rewrite <- (cos_neg (x - f)). replace (- (x - f)) with (f - x) by lra.
    rewrite (same_angle_cos f (phi + PI) x F2). replace (phi + PI - x) with ((phi - x) + PI) by lra. rewrite neg_cos. ring. }
  assert (PD : forall r' p', pdist r phi r' p' = sqrt (r * r + r' * r' + 2 * r * r' * cos (p' - f))).
  { intros. rewrite pdist_eq, CF. f_equal. ring. }
  destruct (in_active l f) eqn:A.
  - destruct (active_dir l f F1 A) as (t & Ht & [k St]). split.
    + exists (e1 l), t. split; [lra|split; [lra|]]. rewrite PD. replace (t - f) with (0 + 2 * PI * IZR k) by lra.
      rewrite cos_shift, cos_0. replace (r * r + e1 l * e1 l + 2 * r * e1 l * 1) with ((r + e1 l) * (r + e1 l)) by ring.
      apply sqrt_square. lra.
    + intros r' p' H1 H2. rewrite PD. rewrite <- (sqrt_square (r + e1 l)) by lra. apply sqrt_le_1_alt.
      pose proof (COS_bound (p' - f)) as CB. assert (0 <= r * r') by (apply Rmult_le_pos; lra).
      assert (r * r' <= r * e1 l) by (apply Rmult_le_compat_l; lra). assert (r' * r' <= e1 l * e1 l) by nra. nra.
  - destruct (inactive_turn l f T ltac:(lra) F1 A) as (k & K1 & K2). rewrite !upper_max.
    set (c02 := pdist r phi (e0 l) (e2 l)). set (c03 := pdist r phi (e0 l) (e3 l)).
    set (c12 := pdist r phi (e1 l) (e2 l)). set (c13 := pdist r phi (e1 l) (e3 l)). split.
    + pose proof (four_is c02 c03 c12 c13) as W. cbv zeta in W.
      destruct W as [W|[W|[W|W]]]; rewrite W; unfold c02, c03, c12, c13;
        [exists (e0 l), (e2 l)|exists (e0 l), (e3 l)|exists (e1 l), (e2 l)|exists (e1 l), (e3 l)]; (split; [lra|split; [lra|reflexivity]]).
    + intros r' p' H1 H2. apply four_le. unfold c02, c03, c12, c13. rewrite !PD.
      pose proof (cos_max_turn k (e2 l - f) (e3 l - f) (p' - f) K1 K2 ltac:(lra)) as C.
      assert (X : forall v, cos (p' - f) <= v -> 
        sqrt (r * r + r' * r' + 2 * r * r' * cos (p' - f)) <= sqrt (r * r + e0 l * e0 l + 2 * r * e0 l * v) \/
        sqrt (r * r + r' * r' + 2 * r * r' * cos (p' - f)) <= sqrt (r * r + e1 l * e1 l + 2 * r * e1 l * v)).
      { intros v Hv. assert (Q : r * r + r' * r' + 2 * r * r' * cos (p' - f) <= r * r + r' * r' + 2 * r * r' * v).
        { assert (0 <= r * r') by (apply Rmult_le_pos; lra). nra. }
        destruct (Rle_dec 0 (e0 l + r' + 2 * (r * v))) as [D|D].
        - right. apply sqrt_le_1_alt. eapply Rle_trans; [exact Q|].
          assert (0 <= (e1 l - r') * (e1 l + r' + 2 * (r * v))) by (apply Rmult_le_pos; lra). nra.
        - left. apply sqrt_le_1_alt. eapply Rle_trans; [exact Q|].
          assert (0 <= (r' - e0 l) * (- (e0 l + r' + 2 * (r * v)))) by (apply Rmult_le_pos; lra). nra. }
      destruct (Rle_dec (cos (e2 l - f)) (cos (e3 l - f))).
      * rewrite Rmax_right in C by lra. destruct (X _ C); auto.
      * rewrite Rmax_left in C by lra. destruct (X _ C); auto.
Qed.

Lemma offset_radius : forall id p h m l e, made p POLAR id h m -> lay_type p = POLAR -> pl_x (asked POLAR h) <> 0 ->
  sane_extent POLAR l -> two_turns l -> extent_pp m l = Ok e ->
  is_radius_range (area POLAR l (asked POLAR h)) (e0 e) (e1 e).
Proof.
  intros id p h m l e M TP X S T E.
  assert (Off : last_offset h <> (0, 0)).
  { intros O. apply X. unfold asked. cbn [pl_x]. rewrite O, point_polar. cbn. ring. }
  assert (Ss : side_settled p POLAR h) by (right; intros (_ & _ & O); contradiction).
  assert (Sy : not_on_y_axis p POLAR h) by (intros _ _ Z; contradiction).
  set (pl := asked POLAR h) in *.
  assert (LF : m_lig m = false).
  { destruct (m_lig m) eqn:L; [|reflexivity]. rewrite (md_lig _ _ _ _ _ M) in L.
    rewrite !andb_true_iff, !Reqb_true in L. exfalso. apply Off. destruct (last_offset h); cbn in L. destruct L as [[[_ L0] L1] _]. congruence. }
  assert (OC : m_offc0 m = pl_x pl).
  { pose proof (md_offc _ _ _ _ _ M) as Z. unfold pl, asked. cbn [pl_x]. rewrite <- Z. reflexivity. }
  unfold extent_pp in E. destruct (Reqb_spec (m_off0 m) 0) as [O0|O0].
  { exfalso. apply X. rewrite <- OC. pose proof (md_offc _ _ _ _ _ M) as Z. pose proof (md_off _ _ _ _ _ M) as Z'.
    rewrite <- Z', point_polar in Z. cbn [fst snd] in Z. injection Z as Z1 Z2. rewrite Z1, O0. ring. }
  destruct (globalToLocal_made p POLAR id h m 0 0 (or_intror eq_refl) M Ss Sy) as (o & Eo & Po). fold pl in Po.
  assert (OR : 0 <= fst o /\ 0 <= snd o).
  { unfold globalToLocal in Eo. rewrite LF, (md_type _ _ _ _ _ M), (md_layout _ _ _ _ _ M), TP, OC in Eo.
    cbn [Z.eqb POLAR Pos.eqb andb] in Eo. destruct (Reqb_spec (pl_x pl) 0); [contradiction|]. cbn [andb] in Eo.
    injection Eo as <-. cbn [fst snd]. split; [apply sqrt_pos|]. apply polar_back_range. }
  rewrite TP, !point_polar in Po. cbn [fst snd] in Po. rewrite !Rmult_0_l in Po.
  assert (NORM : forall r' p', pt_dist (0, 0) (mount pl (point POLAR (r', p'))) = pdist (fst o) (snd o) r' p').
  { intros r' p'. rewrite <- (mount_unmount pl (0, 0)), mount_dist, <- Po, point_polar. reflexivity. }
  assert (CORNER : forall r' p', exists a, localToGlobal m r' p' = Ok a /\ fst a = pdist (fst o) (snd o) r' p').
  { intros r' p'. destruct (localToGlobal_made p POLAR id h m r' p' (or_intror eq_refl) M Ss) as (a & Ea & Pa).
    exists a. split; [exact Ea|]. fold pl in Pa. rewrite TP in Pa.
    assert (A0 : 0 <= fst a).
    { unfold localToGlobal in Ea. rewrite LF, (md_type _ _ _ _ _ M), (md_layout _ _ _ _ _ M), TP, OC in Ea.
      cbn [Z.eqb POLAR Pos.eqb andb] in Ea. destruct (Reqb_spec (pl_x pl) 0); [contradiction|]. cbn [andb] in Ea.
      injection Ea as <-. cbn [fst]. apply sqrt_pos. }
    rewrite <- NORM, <- Pa, point_polar. unfold pt_dist, RectSpec.dist2. cbn [fst snd].
    rewrite <- (norm_polar (fst a) (snd a)) at 1 by exact A0. f_equal. ring. }
  rewrite Eo in E. cbn [rbind] in E.
  destruct (CORNER (e0 l) (e2 l)) as (a & Ea & Fa). destruct (CORNER (e0 l) (e3 l)) as (b & Eb & Fb).
  destruct (CORNER (e1 l) (e2 l)) as (c & Ec & Fc). destruct (CORNER (e1 l) (e3 l)) as (d & Ed & Fd).
  rewrite Ea, Eb, Ec, Ed in E. cbn [rbind] in E. rewrite Fa, Fb, Fc, Fd in E.
  destruct (if Rleb (e1 l) (fst o) then _ else _) as [pp|x|]; cbn [rmap] in E; [|discriminate|discriminate].
  injection E as <-. cbn [e0 e1].
  destruct (pp_rMin_is l o S T (proj1 OR) (proj2 OR)) as [N1 N2].
  destruct (pp_rMax_is l o S T (proj1 OR) (proj2 OR)) as [X1 X2].
  split; [|split].
  - intros q (r' & p' & H1 & H2 & ->). rewrite NORM. split; [now apply N2|now apply X2].
  - destruct N1 as (r' & p' & H1 & H2 & H3). exists (mount pl (point POLAR (r', p'))). rewrite NORM.
    split; [exists r', p'; auto|exact H3].
  - destruct X1 as (r' & p' & H1 & H2 & H3). exists (mount pl (point POLAR (r', p'))). rewrite NORM.
    split; [exists r', p'; auto|exact H3].
Qed.

(** ** user level *)
Lemma places_pp : forall id p f h m c m', module_made id p POLAR f h m -> lay_type p = POLAR -> places c ->
  call_module m c = SOk m' tt -> made p POLAR id (h ++ [c]) m' /\
  extent_pp m' (m_localExtent m') = Ok (m_moduleExtent m') /\ extent_pp m' (lay_extent p) = Ok (m_planeExtent m').
Proof.
  intros id p f h m c m' Hm TP Pc H. pose proof (made_is _ _ _ _ _ _ Hm) as M.
  assert (M' : made p POLAR id (h ++ [c]) m').
  { eapply made_step; [right; reflexivity|exact M|]. now rewrite H. }
  destruct (places_extents m c m' Pc ltac:(rewrite (md_type _ _ _ _ _ M); right; reflexivity) H) as [E1 E2].
  unfold global_extent in E1, E2. rewrite (md_type _ _ _ _ _ M'), (md_layout _ _ _ _ _ M'), TP in E1, E2.
  cbn [Z.eqb POLAR Pos.eqb] in E1, E2. auto.
Qed.
Lemma extents_polar_centred : forall id p f h m c m', module_made id p POLAR f h m -> lay_type p = POLAR -> places c ->
  call_module m c = SOk m' tt -> fst (last_offset (h ++ [c])) = 0 ->
  sane_extent POLAR (getLocalModuleExtent m') -> 0 < e3 (getLocalModuleExtent m') - e2 (getLocalModuleExtent m') < 2 * PI ->
  let e := getModuleExtent m' in
  e0 e = e0 (getLocalModuleExtent m') /\ e1 e = e1 (getLocalModuleExtent m') /\ 0 <= e3 e <= 2 * PI /\
  e3 e - e2 e = e3 (getLocalModuleExtent m') - e2 (getLocalModuleExtent m') /\
  forall q, area POLAR (getLocalModuleExtent m') (asked POLAR (h ++ [c])) q <-> area POLAR e (mkPl 0 0 0 false) q.
Proof.
  intros id p f h m c m' Hm TP Pc H O S W e. destruct (places_pp _ _ _ _ _ _ _ Hm TP Pc H) as (M' & E1 & _).
  destruct (centred_extent id p _ m' _ M' O S W) as (x & X0 & X1 & X2 & X3 & X4 & X5).
  unfold getLocalModuleExtent in *. rewrite X0 in E1. injection E1 as E1. unfold e, getModuleExtent. rewrite <- E1. auto.
Qed.
Lemma extents_polar_radius : forall id p f h m c m', module_made id p POLAR f h m -> lay_type p = POLAR -> places c ->
  call_module m c = SOk m' tt -> pl_x (asked POLAR (h ++ [c])) <> 0 ->
  sane_extent POLAR (getLocalModuleExtent m') -> two_turns (getLocalModuleExtent m') ->
  is_radius_range (area POLAR (getLocalModuleExtent m') (asked POLAR (h ++ [c]))) (e0 (getModuleExtent m')) (e1 (getModuleExtent m')).
Proof.
  intros id p f h m c m' Hm TP Pc H X S T. destruct (places_pp _ _ _ _ _ _ _ Hm TP Pc H) as (M' & E1 & _).
  eapply offset_radius; eauto.
Qed.
Lemma full_ring_lost : forall id p f h m c m', module_made id p POLAR f h m -> lay_type p = POLAR -> places c ->
  call_module m c = SOk m' tt -> fst (last_offset (h ++ [c])) = 0 -> negative (last_z (h ++ [c])) = false ->
  0 < last_angle (h ++ [c]) < 2 * PI -> e2 (lay_extent p) = 0 -> e3 (lay_extent p) = 2 * PI ->
  e2 (module_getPlaneExtent m') = e3 (module_getPlaneExtent m').
Proof.
  intros id p f h m c m' Hm TP Pc H O N A L2 L3. destruct (places_pp _ _ _ _ _ _ _ Hm TP Pc H) as (M' & _ & E2).
  destruct (centred_full_circle id p _ m' (lay_extent p) M' O L2 L3 N A) as (x & X0 & X1).
  rewrite X0 in E2. injection E2 as E2. unfold module_getPlaneExtent. rewrite <- E2. exact X1.
Qed.

(** ** which calls succeed *)
Lemma l2g_total : forall m a b, known_type (m_type m) -> exists g, localToGlobal m a b = Ok g.
Proof.
  intros m a b [T|T]; unfold localToGlobal; rewrite T; cbn [Z.eqb CARTESIAN POLAR Pos.eqb];
    repeat match goal with |- context [if ?b then _ else _] => destruct b end; eexists; reflexivity.
Qed.
Lemma g2l_total : forall m a b, known_type (m_type m) -> exists g, globalToLocal m a b = Ok g.
Proof.
  intros m a b [T|T]; unfold globalToLocal; rewrite T; cbn [Z.eqb CARTESIAN POLAR Pos.eqb];
    repeat match goal with |- context [if ?b then _ else _] => destruct b end; eexists; reflexivity.
Qed.
Lemma extent_total : forall m l, known_type (m_type m) -> (lay_type (m_layout m) = POLAR -> 0 < e1 l) ->
  (m_type m = POLAR -> lay_type (m_layout m) = POLAR) -> exists e, global_extent m l = Ok e.
Proof.
  intros m l K L N. unfold global_extent. destruct (Z.eqb_spec (m_type m) POLAR) as [T|T].
  - rewrite (N T). cbn [Z.eqb POLAR Pos.eqb]. unfold extent_pp. destruct (Reqb (m_off0 m) 0); [eexists; reflexivity|].
    destruct (g2l_total m 0 0 K) as [o Eo]; rewrite Eo; cbn [rbind].
    destruct (l2g_total m (e0 l) (e2 l) K) as [a Ea]; rewrite Ea; cbn [rbind].
    destruct (l2g_total m (e0 l) (e3 l) K) as [b Eb]; rewrite Eb; cbn [rbind].
    destruct (l2g_total m (e1 l) (e2 l) K) as [c Ec]; rewrite Ec; cbn [rbind].
    destruct (l2g_total m (e1 l) (e3 l) K) as [d Ed]; rewrite Ed; cbn [rbind].
    destruct (Rleb_spec (e1 l) (fst o)) as [H|H]; [|eexists; reflexivity].
    unfold pp_phi_outside. specialize (L (N T)). destruct (Reqb_spec (fst o) 0); [lra|].
    destruct (l2g_total m 0 0 K) as [g Eg]; rewrite Eg; cbn [rbind].
    destruct (g2l_total m (sqrt (fst g * fst g - e1 l * e1 l))
      (if Rltb 0 (m_z m) then snd g - asin (e1 l / fst o) else snd g + asin (e1 l / fst o)) K) as [t1 E1]. rewrite E1. cbn [rbind].
    destruct (g2l_total m (sqrt (fst g * fst g - e1 l * e1 l))
      (if Rltb 0 (m_z m) then snd g + asin (e1 l / fst o) else snd g - asin (e1 l / fst o)) K) as [t2 E2]. rewrite E2. cbn [rbind rmap].
    eexists. reflexivity.
  - destruct K as [T'|T']; [|contradiction]. assert (K : known_type (m_type m)) by (left; auto). rewrite T'. cbn [Z.eqb CARTESIAN Pos.eqb].
    destruct (lay_type (m_layout m) =? POLAR)%Z; [unfold extent_cp|]; unfold extent_cc.
    + destruct (l2g_total m (e0 l) (e2 l) K) as [a Ea]; rewrite Ea; cbn [rbind].
      destruct (l2g_total m (e0 l) (e3 l) K) as [b Eb]; rewrite Eb; cbn [rbind].
      destruct (l2g_total m (e1 l) (e2 l) K) as [c Ec]; rewrite Ec; cbn [rbind].
      destruct (l2g_total m (e1 l) (e3 l) K) as [d Ed]; rewrite Ed; cbn [rbind].
      destruct (l2g_total m 0 0 K) as [o Eo]; rewrite Eo; cbn [rbind].
      destruct (g2l_total m (fst o) (snd o + e1 l) K) as [t1 E1]; rewrite E1; cbn [rbind].
      destruct (g2l_total m (fst o) (snd o - e1 l) K) as [t2 E2]; rewrite E2; cbn [rbind].
      destruct (g2l_total m (fst o + e1 l) (snd o) K) as [t3 E3]; rewrite E3; cbn [rbind].
      destruct (g2l_total m (fst o - e1 l) (snd o) K) as [t4 E4]; rewrite E4; cbn [rbind]. eexists; reflexivity.
    + destruct (l2g_total m (e0 l) (e2 l) K) as [a Ea]; rewrite Ea; cbn [rbind].
      destruct (l2g_total m (e0 l) (e3 l) K) as [b Eb]; rewrite Eb; cbn [rbind].
      destruct (l2g_total m (e1 l) (e2 l) K) as [c Ec]; rewrite Ec; cbn [rbind].
      destruct (l2g_total m (e1 l) (e3 l) K) as [d Ed]; rewrite Ed; cbn [rbind]. eexists; reflexivity.
Qed.
Lemma local_total : forall p b, (lay_type p = POLAR -> 0 < e0 (lay_extent p) <= e1 (lay_extent p) /\ 0 <= b) ->
  exists l, local_extent p b = Ok l /\ (lay_type p = POLAR -> 0 < e1 l).
Proof.
  intros p b H. unfold local_extent. destruct (Reqb_spec b 0) as [B|B].
  - eexists. split; [reflexivity|]. intros T. specialize (H T). lra.
  - destruct (lay_type_cases p) as [T|T]; rewrite T; cbn [Z.eqb CARTESIAN POLAR Pos.eqb].
    + eexists. split; [reflexivity|]. intros; discriminate.
    + specialize (H T). destruct (Rltb_spec 0 (e1 (lay_extent p))); [|lra].
      destruct (Reqb_spec (e0 (lay_extent p)) 0); [lra|]. cbn [rbind].
      destruct (Rltb _ _); (eexists; split; [reflexivity|intros _; cbn [e1]; lra]).
Qed.
Lemma convert_total : forall m, known_type (m_type m) -> (m_type m = POLAR -> lay_type (m_layout m) = POLAR) ->
  (lay_type (m_layout m) = POLAR -> 0 < e0 (lay_extent (m_layout m)) <= e1 (lay_extent (m_layout m)) /\ 0 <= m_border m) ->
  exists m', convert m = SOk m' tt.
Proof.
  intros m K N H. unfold convert. destruct (local_total _ _ H) as (l & E & L). rewrite E. cbv zeta.
  set (m1 := set_local m l).
  destruct (extent_total m1 l K L N) as [x Ex]. rewrite Ex. cbn [rbind].
  assert (L2 : lay_type (m_layout m) = POLAR -> 0 < e1 (lay_extent (m_layout m))) by (intros T; specialize (H T); lra).
  destruct (extent_total m1 (lay_extent (m_layout m)) K L2 N) as [y Ey].
  change (m_layout m1) with (m_layout m). rewrite Ey. cbn [rmap]. eexists. reflexivity.
Qed.
Lemma convert_polar_rect : forall m, m_type m = POLAR -> lay_type (m_layout m) = CARTESIAN ->
  exists m' e, convert m = SThrow m' (ENotImplemented e).
Proof.
  intros m T L. unfold convert. destruct (local_total (m_layout m) (m_border m)) as (l & E & _).
  { intros L'. rewrite L in L'. discriminate. }
  rewrite E. cbv zeta. unfold global_extent. change (m_type (set_local m l)) with (m_type m).
  change (m_layout (set_local m l)) with (m_layout m). rewrite T, L. cbn. eauto.
Qed.
Lemma last_border_app : forall h c, last_border (h ++ [c]) = match c with MBorder b => b | _ => last_border h end.
Proof. intros. unfold last_border. rewrite fold_left_app. destruct c; reflexivity. Qed.
Lemma calls_succeed : forall id p type f h m c, module_made id p type f h m ->
  (type = POLAR -> lay_type p = POLAR) ->
  (lay_type p = POLAR -> 0 < e0 (lay_extent p) <= e1 (lay_extent p) /\ 0 <= last_border (h ++ [c])) ->
  exists m', call_module m c = SOk m' tt.
Proof.
  intros id p type f h m c Hm N H. pose proof (made_is _ _ _ _ _ _ Hm) as M. destruct Hm as [K _]. rewrite last_border_app in H.
  pose proof (md_type _ _ _ _ _ M) as T. pose proof (md_layout _ _ _ _ _ M) as L. pose proof (md_border _ _ _ _ _ M) as B.
  destruct c; cbn [call_module].
  - unfold setOffset. destruct (Z.eqb_spec (m_type m) POLAR) as [Q|Q].
    + apply convert_total; cbn; rewrite ?T, ?L, ?B; auto.
    + destruct (Z.eqb_spec (m_type m) CARTESIAN) as [Q'|Q']; [apply convert_total; cbn; rewrite ?T, ?L, ?B; auto|].
      exfalso. rewrite T in Q, Q'. destruct K; contradiction.
  - eexists; reflexivity.
  - apply convert_total; cbn; rewrite ?T, ?L, ?B; auto.
  - apply convert_total; cbn; rewrite ?T, ?L, ?B; auto.
  - eexists; reflexivity.
Qed.
Lemma calls_not_implemented : forall id p f h m c, module_made id p POLAR f h m -> lay_type p = CARTESIAN -> places c ->
  exists m' e, call_module m c = SThrow m' (ENotImplemented e).
Proof.
  intros id p f h m c Hm L Pc. pose proof (made_is _ _ _ _ _ _ Hm) as M.
  pose proof (md_type _ _ _ _ _ M) as T. pose proof (md_layout _ _ _ _ _ M) as LL.
  destruct c; cbn [call_module]; cbn in Pc; try contradiction.
  - unfold setOffset. rewrite T. cbn [Z.eqb POLAR Pos.eqb]. apply convert_polar_rect; cbn; rewrite ?T, ?LL; auto.
  - apply convert_polar_rect; cbn; rewrite ?T, ?LL; auto.
Qed.
(** so that every history of calls can be made *)
Lemma history_exists : forall id p type f h, known_type type -> (type = POLAR -> lay_type p = POLAR) ->
  (lay_type p = POLAR -> 0 < e0 (lay_extent p) <= e1 (lay_extent p) /\ forall b, In (MBorder b) h -> 0 <= b) ->
  exists m, module_made id p type f h m.
Proof.
  intros id p type f h K N. induction h as [|c h IH] using rev_ind; intros H.
  - eexists. split; [exact K|]. reflexivity.
  - destruct IH as [m Hm].
    { intros T. destruct (H T) as [H1 H2]. split; [exact H1|]. intros b I. apply H2. apply in_or_app. auto. }
    destruct (calls_succeed id p type f h m c Hm N) as [m' E].
    { intros T. destruct (H T) as [H1 H2]. split; [exact H1|].
      assert (X : forall k, (forall b, In (MBorder b) k -> 0 <= b) -> 0 <= last_border k).
      { clear. intros k. induction k as [|c k IH] using rev_ind; intros A; [cbn; lra|]. rewrite last_border_app.
        destruct c; try (apply IH; intros b' I; apply A; apply in_or_app; auto).
        apply A. apply in_or_app. right. left. reflexivity. }
      apply X. exact H2. }
    exists m'. split; [exact K|]. destruct Hm as [_ Hm]. rewrite call_all_app, Hm. cbn. rewrite E. reflexivity.
Qed.
