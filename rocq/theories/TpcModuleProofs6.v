(** Proofs about a single TPC module: the phi range at user level, and where it is wrong. *)
From Coq Require Import ZArith List String Bool Reals Lra Lia.
From Flocq Require Import Core.Raux.
From Verif Require Import Base RBase Trig DiskBase DiskSpec DiskProofs TpcModuleModel TpcModel TpcSpec
  TpcModuleProofs TpcModuleProofs2 TpcModuleProofs3 TpcModuleProofs4 TpcAngle TpcModuleProofs5.
Import ListNotations.
Open Scope R_scope.

Lemma extents_polar_angle : forall id p f h m c m', module_made id p POLAR f h m -> lay_type p = POLAR -> places c ->
  call_module m c = SOk m' tt ->
  let pl := asked POLAR (h ++ [c]) in pl_x pl <> 0 ->
  (sane_extent POLAR (getLocalModuleExtent m') -> ~ area POLAR (getLocalModuleExtent m') pl (0, 0) ->
   ~ grazes_corner (getLocalModuleExtent m') pl ->
   is_angle_range (area POLAR (getLocalModuleExtent m') pl) (e2 (getModuleExtent m')) (e3 (getModuleExtent m'))) /\
  (sane_extent POLAR (lay_extent p) -> ~ area POLAR (lay_extent p) pl (0, 0) -> ~ grazes_corner (lay_extent p) pl ->
   is_angle_range (area POLAR (lay_extent p) pl) (e2 (module_getPlaneExtent m')) (e3 (module_getPlaneExtent m'))).
Proof.
  intros id p f h m c m' Hm TP Pc H pl X. destruct (places_pp _ _ _ _ _ _ _ Hm TP Pc H) as (M' & E1 & E2).
  split; intros; eapply offset_angles; eauto.
Qed.

(** ** the conversions, once more *)
Lemma conversions : forall id p h m, made p POLAR id h m -> lay_type p = POLAR -> pl_x (asked POLAR h) <> 0 ->
  Reqb (m_off0 m) 0 = false /\ Rltb 0 (m_z m) = negb (pl_neg (asked POLAR h)) /\
  (forall c0 c1, exists o, globalToLocal m c0 c1 = Ok o /\ point POLAR o = unmount (asked POLAR h) (point POLAR (c0, c1)) /\ 0 <= fst o /\ 0 <= snd o < 2 * PI) /\
  (forall c0 c1, exists a, localToGlobal m c0 c1 = Ok a /\ point POLAR a = mount (asked POLAR h) (point POLAR (c0, c1)) /\ 0 <= fst a /\ 0 <= snd a < 2 * PI).
Proof.
  intros id p h m M TP X.
  assert (Off : last_offset h <> (0, 0)).
  { intros O. apply X. unfold asked. cbn [pl_x]. rewrite O, point_polar. cbn. ring. }
  assert (Ss : side_settled p POLAR h) by (right; intros (_ & _ & O); contradiction).
  assert (Sy : not_on_y_axis p POLAR h) by (intros _ _ Z; contradiction).
  assert (Hz : Rltb 0 (m_z m) = negb (pl_neg (asked POLAR h))).
  { rewrite Rltb_Rleb, (md_neg _ _ _ _ _ M). reflexivity. }
  set (pl := asked POLAR h) in *.
  assert (LF : m_lig m = false).
  { destruct (m_lig m) eqn:L; [|reflexivity]. rewrite (md_lig _ _ _ _ _ M) in L.
    rewrite !andb_true_iff, !Reqb_true in L. exfalso. apply Off. destruct (last_offset h); cbn in L. destruct L as [[[_ L0] L1] _]. congruence. }
  assert (OC : m_offc0 m = pl_x pl).
  { pose proof (md_offc _ _ _ _ _ M) as Z. unfold pl, asked. cbn [pl_x]. rewrite <- Z. reflexivity. }
  split; [|split; [exact Hz|split]].
  - destruct (Reqb_spec (m_off0 m) 0) as [O0|O0]; [|reflexivity].
    exfalso. apply X. rewrite <- OC. pose proof (md_offc _ _ _ _ _ M) as Z. pose proof (md_off _ _ _ _ _ M) as Z'.
    rewrite <- Z', point_polar in Z. cbn [fst snd] in Z. injection Z as Z1 Z2. rewrite Z1, O0. ring.
  - intros c0 c1. destruct (globalToLocal_made p POLAR id h m c0 c1 (or_intror eq_refl) M Ss Sy) as (o & Eo & Po). fold pl in Po. rewrite TP in Po.
    exists o. split; [exact Eo|]. split; [exact Po|].
    unfold globalToLocal in Eo. rewrite LF, (md_type _ _ _ _ _ M), (md_layout _ _ _ _ _ M), TP, OC in Eo.
    cbn [Z.eqb POLAR Pos.eqb andb] in Eo. destruct (Reqb_spec (pl_x pl) 0); [contradiction|]. cbn [andb] in Eo.
    injection Eo as <-. cbn [fst snd]. split; [apply sqrt_pos|]. apply polar_back_range.
  - intros c0 c1. destruct (localToGlobal_made p POLAR id h m c0 c1 (or_intror eq_refl) M Ss) as (a & Ea & Pa). fold pl in Pa. rewrite TP in Pa.
    exists a. split; [exact Ea|]. split; [exact Pa|].
    unfold localToGlobal in Ea. rewrite LF, (md_type _ _ _ _ _ M), (md_layout _ _ _ _ _ M), TP, OC in Ea.
    cbn [Z.eqb POLAR Pos.eqb andb] in Ea. destruct (Reqb_spec (pl_x pl) 0); [contradiction|]. cbn [andb] in Ea.
    injection Ea as <-. cbn [fst snd]. split; [apply sqrt_pos|]. apply polar_back_range.
Qed.
Lemma polar_near r a r' a' : 0 <= r -> 0 < r' -> point POLAR (r, a) = point POLAR (r', a') -> r = r' /\ same_angle a a'.
Proof.
  intros R R' E. destruct (polar_same r a r' a' R R' E) as (E1 & C & S). split; [auto|].
  destruct (dir_turn (cos a) (sin a) a' a) as [k K]; [exists 1; rewrite C, S; lra|exists 1; lra|exists k; exact K].
Qed.

(** ** the origin in the middle of the module *)
Lemma seen_around D r0 r1 t0 t1 : 0 < D -> r0 < D < r1 -> t0 < 0 < t1 -> forall th, sees D r0 r1 t0 t1 th.
Proof.
  intros HD R T th. pose proof PI_RGT_0 as P.
  set (eta := Rmin (- t0) t1). assert (Eta : 0 < eta /\ eta <= - t0 /\ eta <= t1).
  { unfold eta. split; [apply Rmin_glb_lt; lra|]. split; [apply Rmin_l|apply Rmin_r]. }
  assert (Ct : continuity_pt atan 0) by (apply derivable_continuous_pt, derivable_pt_atan).
  destruct (Ct eta ltac:(lra)) as (al & Al & Near).
  set (rho := Rmin (D / 2) (Rmin (Rmin (D - r0) (r1 - D)) (al * D / 4))).
  assert (Rho : 0 < rho /\ rho <= D / 2 /\ rho <= D - r0 /\ rho <= r1 - D /\ rho <= al * D / 4).
  { unfold rho. pose proof (Rmin_l (D / 2) (Rmin (Rmin (D - r0) (r1 - D)) (al * D / 4))).
    pose proof (Rmin_r (D / 2) (Rmin (Rmin (D - r0) (r1 - D)) (al * D / 4))).
    pose proof (Rmin_l (Rmin (D - r0) (r1 - D)) (al * D / 4)). pose proof (Rmin_r (Rmin (D - r0) (r1 - D)) (al * D / 4)).
    pose proof (Rmin_l (D - r0) (r1 - D)). pose proof (Rmin_r (D - r0) (r1 - D)).
    split; [|lra]. repeat apply Rmin_glb_lt; try lra. apply Rdiv_lt_0_compat; [apply Rmult_lt_0_compat; lra|lra]. }
  clearbody rho. pose proof (COS_bound th) as Cb. pose proof (SIN_bound th) as Sb. pose proof (sin2_cos2 th) as Q. unfold Rsqr in Q.
  set (x := D + rho * cos th). set (y := rho * sin th).
  assert (Xp : D / 2 <= x) by (unfold x; nra).
  set (z := y / x). set (r := sqrt (x * x + y * y)).
  assert (Zs : Rabs z < al).
  { unfold z. unfold Rdiv. rewrite Rabs_mult, (Rabs_right (/ x)) by (apply Rle_ge; left; apply Rinv_0_lt_compat; lra).
    apply (Rmult_lt_reg_r x); [lra|]. rewrite Rmult_assoc, Rinv_l, Rmult_1_r by lra.
    assert (Rabs y <= rho). { unfold y. rewrite Rabs_mult, (Rabs_right rho) by lra. assert (Rabs (sin th) <= 1) by (apply Rabs_le; lra). nra. }
    assert (al * (D / 2) <= al * x) by (apply Rmult_le_compat_l; lra). assert (0 < al * D) by (apply Rmult_lt_0_compat; lra). lra. }
  assert (Az : Rabs (atan z) < eta).
  { destruct (Req_dec z 0) as [->|Nz]; [rewrite atan_0, Rabs_R0; lra|].
    specialize (Near z). cbn in Near. unfold R_dist in Near. rewrite atan_0, !Rminus_0_r in Near. apply Near.
    split; [split; [exact I|auto]|exact Zs]. }
  apply Rabs_def2 in Az.
  assert (A2 : atan2 y x = atan z) by (unfold atan2, Rltb; destruct (Rlt_dec 0 x); [reflexivity|lra]).
  assert (Ex : r * cos (atan z) = x) by (rewrite <- A2; unfold r; apply atan2_cos; left; lra).
  assert (Ey : r * sin (atan z) = y) by (rewrite <- A2; unfold r; apply atan2_sin; left; lra).
  exists r, (atan z). split; [|split; [lra|]].
  - assert (Rb : (D - rho) * (D - rho) <= x * x + y * y <= (D + rho) * (D + rho)).
    { assert (E : x * x + y * y = D * D + 2 * D * rho * cos th + rho * rho).
      { unfold x, y. transitivity (D * D + 2 * D * rho * cos th + rho * rho * (sin th * sin th + cos th * cos th)); [ring|rewrite Q; ring]. }
      rewrite E. assert (0 < D * rho) by (apply Rmult_lt_0_compat; lra). split; nra. }
    assert (D - rho <= r). { rewrite <- (sqrt_square (D - rho)) by lra. apply sqrt_le_1_alt. lra. }
    assert (r <= D + rho). { rewrite <- (sqrt_square (D + rho)) by lra. apply sqrt_le_1_alt. lra. }
    lra.
  - exists rho. rewrite Ex, Ey. unfold x, y. repeat split; lra.
Qed.
Lemma surrounding_range : forall id p h m l e, made p POLAR id h m -> lay_type p = POLAR -> pl_x (asked POLAR h) <> 0 ->
  sane_extent POLAR l -> (exists r t, e0 l < r < e1 l /\ e2 l < t < e3 l /\ mount (asked POLAR h) (point POLAR (r, t)) = (0, 0)) ->
  extent_pp m l = Ok e ->
  e2 e = 0 /\ e3 e = 2 * PI /\ is_angle_range (area POLAR l (asked POLAR h)) (e2 e) (e3 e).
Proof.
  intros id p h m l e M TP X (S1 & S2 & S3) (r & t & Hr & Ht & HO) E. destruct (S3 eq_refl) as [S4 S5]. pose proof PI_RGT_0 as P.
  destruct (conversions id p h m M TP X) as (O0 & Hz & G2L & L2G). set (pl := asked POLAR h) in *.
  unfold extent_pp in E. rewrite O0 in E.
  destruct (G2L 0 0) as ([D g0] & Eo & Po & D0 & Bg). cbn [fst snd] in D0, Bg.
  rewrite (point_polar (0, 0)) in Po. cbn [fst snd] in Po. rewrite !Rmult_0_l in Po.
  assert (PP : point POLAR (D, g0) = point POLAR (r, t)) by (rewrite Po, <- HO; apply unmount_mount).
  destruct (polar_near D g0 r t D0 ltac:(lra) PP) as [ED Sg]. rewrite Eo in E. cbn [rbind fst snd] in E.
  destruct (L2G (e0 l) (e2 l)) as (a & Ea & _). destruct (L2G (e0 l) (e3 l)) as (b & Eb & _).
  destruct (L2G (e1 l) (e2 l)) as (c & Ec & _). destruct (L2G (e1 l) (e3 l)) as (d & Ed & _).
  rewrite Ea, Eb, Ec, Ed in E. cbn [rbind] in E. subst D.
  unfold Rleb in E at 1. destruct (Rle_dec (e1 l) r); [lra|].
  assert (G : wrap_down (e2 l + 2 * PI) (wrap_up (e2 l) g0) = t).
  { apply same_near; [eapply same_trans; [apply wrap_same|exact Sg]|]. pose proof (wrap_window (e2 l) (e2 l + 2 * PI) g0 ltac:(lra)). lra. }
  cbn [rmap] in E. injection E as <-. cbn [e2 e3].
  assert (Z : pp_phi_inside m l (r, g0) (snd a) (snd b) (snd c) (snd d) = (0, 2 * PI)).
  { unfold pp_phi_inside. cbn [fst snd]. rewrite G. unfold Rltb, Rleb.
    destruct (Rlt_dec (e3 l - e2 l) PI).
    - destruct (Rlt_dec t (e3 l)); [|lra]. destruct (Rle_dec r (e0 l)); [lra|reflexivity].
    - destruct (Rlt_dec (e3 l) t); [lra|]. destruct (Rle_dec r (e0 l)); [lra|reflexivity]. }
  rewrite Z. cbn [fst snd]. split; [reflexivity|]. split; [reflexivity|]. split; [lra|]. intros th. split; intros _.
  - pose proof (wrap_window 0 (0 + 2 * PI) th ltac:(lra)) as W. destruct (wrap_same 0 (0 + 2 * PI) th) as [k K]. exists k. lra.
  - rewrite (area_seen pl r g0 t l th Po (same_sym _ _ Sg)). apply seen_around; lra.
Qed.
Lemma extents_polar_surrounding : forall id p f h m c m', module_made id p POLAR f h m -> lay_type p = POLAR -> places c ->
  call_module m c = SOk m' tt ->
  let pl := asked POLAR (h ++ [c]) in let l := getLocalModuleExtent m' in pl_x pl <> 0 -> sane_extent POLAR l ->
  (exists r t, e0 l < r < e1 l /\ e2 l < t < e3 l /\ mount pl (point POLAR (r, t)) = (0, 0)) ->
  e2 (getModuleExtent m') = 0 /\ e3 (getModuleExtent m') = 2 * PI /\
  is_angle_range (area POLAR l pl) (e2 (getModuleExtent m')) (e3 (getModuleExtent m')).
Proof.
  intros id p f h m c m' Hm TP Pc H pl l X S O. destruct (places_pp _ _ _ _ _ _ _ Hm TP Pc H) as (M' & E1 & _).
  eapply surrounding_range; eauto.
Qed.

(** ** a corner exactly on a tangent *)
Lemma cos_5PI4 : cos (5 * (PI / 4)) = - (1 / sqrt 2).
Proof. replace (5 * (PI / 4)) with (PI / 4 + PI) by lra. rewrite neg_cos, cos_PI4. lra. Qed.
Lemma sin_5PI4 : sin (5 * (PI / 4)) = - (1 / sqrt 2).
Proof. replace (5 * (PI / 4)) with (PI / 4 + PI) by lra. rewrite neg_sin, sin_PI4. lra. Qed.
Lemma graze_numbers R1 : 0 < R1 -> let q := R1 * (1 / sqrt 2) in 0 < q /\ sqrt 2 * R1 = 2 * q /\ R1 * R1 = 2 * (q * q).
Proof.
  intros H q. assert (S : 0 < sqrt 2) by (apply sqrt_lt_R0; lra). assert (SS : sqrt 2 * sqrt 2 = 2) by (apply sqrt_sqrt; lra).
  assert (I : 1 / sqrt 2 = sqrt 2 / 2) by (apply (Rmult_eq_reg_r (sqrt 2)); [field_simplify; lra|lra]).
  unfold q. rewrite I. repeat split; nra.
Qed.
Lemma in_the_wedge r R1 q al : 0 <= r -> r <= R1 -> 0 < q -> R1 * R1 = 2 * (q * q) ->
  0 <= r * cos al + 2 * q + r * sin al /\ 0 <= r * cos al + 2 * q - r * sin al.
Proof.
  intros R0 RR Q E. pose proof (sin2_cos2 al) as SC. unfold Rsqr in SC. set (c := cos al) in *. set (s := sin al) in *. clearbody c s.
  pose proof (Rle_0_sqr (c + s)) as A1. pose proof (Rle_0_sqr (c - s)) as A2. unfold Rsqr in A1, A2.
  assert (B : (c + s) * (c + s) <= 2 /\ (c - s) * (c - s) <= 2) by (split; lra).
  assert (I : forall v, v * v <= 2 -> - (2 * q) <= r * v).
  { clear - R0 RR Q E. intros v V. apply Rnot_lt_le. intros L.
    assert (r * r <= R1 * R1) by (apply Rmult_le_compat; lra).
    assert (r * r * (v * v) <= R1 * R1 * 2).
    { apply Rmult_le_compat; [apply Rle_0_sqr|apply Rle_0_sqr|lra|lra]. }
    assert (2 * q * (2 * q) < (- (r * v)) * (- (r * v))) by (apply Rmult_le_0_lt_compat; lra). lra. }
  pose proof (I _ (proj1 B)). pose proof (I _ (proj2 B)). split; lra.
Qed.
Lemma grazed_range : forall id p h m l e, made p POLAR id h m -> lay_type p = POLAR ->
  sane_extent POLAR l -> e0 l < e1 l -> e3 l <= e2 l + 3 / 2 * PI ->
  negative (last_z h) = false -> last_offset h = (sqrt 2 * e1 l, 0) -> last_angle h = 5 * (PI / 4) - e2 l ->
  extent_pp m l = Ok e ->
  e3 e = 7 * (PI / 4) /\ (forall th, PI / 4 < th < 7 * (PI / 4) -> ~ exists q, area POLAR l (asked POLAR h) q /\ direction q th) /\
  ~ is_angle_range (area POLAR l (asked POLAR h)) (e2 e) (e3 e).
Proof.
  intros id p h m l e M TP (S1 & S2 & S3) Hlt Hw Nz Off Ang E. destruct (S3 eq_refl) as [S4 S5]. pose proof PI_RGT_0 as P.
  destruct (graze_numbers (e1 l) ltac:(lra)) as (Q0 & Q1 & Q2). set (q := e1 l * (1 / sqrt 2)) in *.
  assert (PL : asked POLAR h = mkPl (5 * (PI / 4) - e2 l) (2 * q) 0 false).
  { unfold asked. rewrite Off, Ang, Nz, point_polar. cbn [fst snd]. rewrite cos_0, sin_0, Q1. f_equal; ring. }
  assert (X : pl_x (asked POLAR h) <> 0) by (rewrite PL; cbn; lra).
  destruct (conversions id p h m M TP X) as (O0 & Hz & G2L & L2G). rewrite PL in *. cbn [pl_neg negb] in Hz.
  set (pl := mkPl _ _ _ _) in *.
  assert (MT : forall r t, mount pl (point POLAR (r, t)) = (r * cos (t + (5 * (PI / 4) - e2 l)) + 2 * q, r * sin (t + (5 * (PI / 4) - e2 l)))).
  { intros r t. rewrite point_polar. unfold mount, pl. cbn [fst snd pl_neg pl_x pl_y pl_angle]. rewrite cos_plus, sin_plus. f_equal; ring. }
  assert (U : forall r t, point POLAR (r, t) = unmount pl (r * cos (t + (5 * (PI / 4) - e2 l)) + 2 * q, r * sin (t + (5 * (PI / 4) - e2 l)))).
  { intros r t. rewrite <- MT. symmetry. apply unmount_mount. }
  unfold extent_pp in E. rewrite O0 in E.
  destruct (G2L 0 0) as ([D g0] & Eo & Po & D0 & Bg). cbn [fst snd] in D0, Bg.
  rewrite (point_polar (0, 0)) in Po. cbn [fst snd] in Po. rewrite !Rmult_0_l in Po.
  assert (PP : point POLAR (D, g0) = point POLAR (2 * q, e2 l - PI / 4)).
  { rewrite Po, U. f_equal. replace (e2 l - PI / 4 + (5 * (PI / 4) - e2 l)) with PI by lra. rewrite cos_PI, sin_PI. f_equal; ring. }
  destruct (polar_near D g0 (2 * q) (e2 l - PI / 4) D0 ltac:(lra) PP) as [ED Sg]. rewrite Eo in E. cbn [rbind fst snd] in E.
  destruct (L2G (e0 l) (e2 l)) as (a & Ea & _). destruct (L2G (e0 l) (e3 l)) as (b & Eb & _).
  destruct (L2G (e1 l) (e2 l)) as ([cr cp] & Ec & Pc & Fc & Bc). destruct (L2G (e1 l) (e3 l)) as (d & Ed & _).
  rewrite Ea, Eb, Ec, Ed in E. cbn [rbind fst snd] in E. cbn [fst snd] in Fc, Bc.
  (* the grazed corner *)
  assert (C7 : cos (7 * (PI / 4)) = 1 / sqrt 2 /\ sin (7 * (PI / 4)) = - (1 / sqrt 2)).
  { replace (7 * (PI / 4)) with (- (PI / 4) + 2 * PI * IZR 1) by (simpl; lra). rewrite cos_shift', sin_shift', cos_neg, sin_neg, cos_PI4, sin_PI4. auto. }
  assert (Ecp : cp = 7 * (PI / 4)).
  { assert (Z : point POLAR (cr, cp) = point POLAR (e1 l, 7 * (PI / 4))).
    { rewrite Pc, MT, point_polar. cbn [fst snd]. replace (e2 l + (5 * (PI / 4) - e2 l)) with (5 * (PI / 4)) by lra. rewrite cos_5PI4, sin_5PI4.
      destruct C7 as [-> ->]. unfold q. f_equal; ring. }
    destruct (polar_near cr cp (e1 l) (7 * (PI / 4)) Fc ltac:(lra) Z) as [_ Sc]. apply same_near; [exact Sc|lra]. }
  unfold Rleb in E at 1. subst D. assert (OUT : e1 l <= 2 * q) by nra. destruct (Rle_dec (e1 l) (2 * q)) as [_|]; [|contradiction].
  unfold pp_phi_outside in E. cbn [fst snd] in E. destruct (Reqb_spec (2 * q) 0) as [|_]; [lra|].
  destruct (L2G 0 0) as ([ogr ogp] & Eog & Pog & Fog & Bog). rewrite Eog in E. cbn [rbind fst snd] in E. cbn [fst snd] in Fog, Bog.
  assert (OG : ogr = 2 * q /\ ogp = 0).
  { assert (Z : point POLAR (ogr, ogp) = point POLAR (2 * q, 0)).
    { rewrite Pog, MT, point_polar. cbn [fst snd]. rewrite cos_0, sin_0. f_equal; ring. }
    destruct (polar_near ogr ogp (2 * q) 0 Fog ltac:(lra) Z) as [Z1 Sc]. split; [auto|]. apply same_near; [exact Sc|lra]. }
  destruct OG as [-> ->].
  assert (BE : asin (e1 l / (2 * q)) = PI / 4).
  { replace (e1 l / (2 * q)) with (sin (PI / 4)); [apply asin_sin; lra|]. rewrite sin_PI4. rewrite <- Q1. field. split; [lra|].
    apply Rgt_not_eq. apply sqrt_lt_R0. lra. }
  assert (RR : sqrt (2 * q * (2 * q) - e1 l * e1 l) = e1 l).
  { replace (2 * q * (2 * q) - e1 l * e1 l) with (e1 l * e1 l) by lra. apply sqrt_square. lra. }
  rewrite BE, RR, Hz in E.
  destruct (G2L (e1 l) (0 - PI / 4)) as (t1 & Et1 & _). destruct (G2L (e1 l) (0 + PI / 4)) as ([t2r t2p] & Et2 & Pt2 & Ft2 & Bt2).
  rewrite Et1, Et2 in E. cbn [rbind rmap fst snd] in E. cbn [fst snd] in Ft2, Bt2.
  assert (W2 : wrap_down (e2 l + 2 * PI) (wrap_up (e2 l) t2p) = e2 l + 3 / 2 * PI).
  { assert (Z : point POLAR (t2r, t2p) = point POLAR (e1 l, e2 l + 3 / 2 * PI)).
    { rewrite Pt2, (U (e1 l) (e2 l + 3 / 2 * PI)), point_polar. cbn [fst snd]. replace (0 + PI / 4) with (PI / 4) by lra.
      replace (e2 l + 3 / 2 * PI + (5 * (PI / 4) - e2 l)) with (PI - PI / 4 + 2 * PI * IZR 1) by (simpl; lra).
      rewrite cos_shift', sin_shift', Rtrigo_facts.cos_pi_minus, Rtrigo_facts.sin_pi_minus, cos_PI4, sin_PI4. unfold q. do 2 f_equal. ring. }
    destruct (polar_near t2r t2p (e1 l) _ Ft2 ltac:(lra) Z) as [_ Sc].
    apply same_near; [eapply same_trans; [apply wrap_same|exact Sc]|].
    pose proof (wrap_window (e2 l) (e2 l + 2 * PI) t2p ltac:(lra)). lra. }
  rewrite W2 in E. unfold Rltb in E at 2. destruct (Rlt_dec (e2 l + 3 / 2 * PI) (e3 l)); [lra|].
  injection E as <-. cbn [e2 e3].
  assert (W : forall x, wrap_down (0 - PI / 4 + 2 * PI) (wrap_up (0 - PI / 4) x) <= 7 * (PI / 4)).
  { intros x. pose proof (wrap_window (0 - PI / 4) (0 - PI / 4 + 2 * PI) x ltac:(lra)). lra. }
  assert (Wc : wrap_down (0 - PI / 4 + 2 * PI) (wrap_up (0 - PI / 4) cp) = 7 * (PI / 4)) by (rewrite Ecp; apply wrap_id; lra).
  assert (HI : upper (upper (upper (wrap_down (0 - PI / 4 + 2 * PI) (wrap_up (0 - PI / 4) (snd a))) (wrap_down (0 - PI / 4 + 2 * PI) (wrap_up (0 - PI / 4) (snd b))))
                      (wrap_down (0 - PI / 4 + 2 * PI) (wrap_up (0 - PI / 4) cp))) (wrap_down (0 - PI / 4 + 2 * PI) (wrap_up (0 - PI / 4) (snd d))) = 7 * (PI / 4)).
  { rewrite Wc. pose proof (W (snd a)). pose proof (W (snd b)). pose proof (W (snd d)). rewrite !upper_max. unfold Rmax. repeat destruct (Rle_dec _ _); lra. }
  rewrite HI. split; [reflexivity|].
  (* what is really seen *)
  assert (FW : forall x y, area POLAR l pl (x, y) -> 0 <= x + y /\ 0 <= x - y).
  { intros x y (r & t & R & T & Z). rewrite MT in Z. injection Z as -> ->. set (al := t + (5 * (PI / 4) - e2 l)).
    pose proof (in_the_wedge r (e1 l) q al ltac:(lra) ltac:(lra) Q0 Q2). lra. }
  assert (NS : forall th, PI / 4 < th < 7 * (PI / 4) -> ~ exists q, area POLAR l pl q /\ direction q th).
  { intros th Th (pt & Ar & rho & Hrho & ->). destruct (FW _ _ Ar) as [F1 F2].
    assert (K1 : 0 <= cos th + sin th) by (apply (Rmult_le_reg_l rho); lra). assert (K2 : 0 <= cos th - sin th) by (apply (Rmult_le_reg_l rho); lra).
    assert (S : 0 < 1 / sqrt 2) by (apply Rdiv_lt_0_compat; [lra|apply sqrt_lt_R0; lra]).
    assert (C1 : 0 <= cos (th - PI / 4)) by (rewrite cos_minus, cos_PI4, sin_PI4; nra).
    assert (C2 : 0 <= cos (th + PI / 4)) by (rewrite cos_plus, cos_PI4, sin_PI4; nra).
    destruct (Rle_dec th (3 * (PI / 4))) as [L|L].
    - pose proof (cos_lt_0 (th + PI / 4) ltac:(lra) ltac:(lra)). lra.
    - destruct (Rlt_dec (th - PI / 4) (3 * (PI / 2))) as [L'|L']; [|lra]. pose proof (cos_lt_0 (th - PI / 4) ltac:(lra) ltac:(lra)). lra. }
  split; [exact NS|]. intros [B R].
  match goal with _ : ?lo <= 7 * (PI / 4) <= ?lo + 2 * PI |- _ => set (lo' := lo) in * end.
  destruct (Rlt_le_dec lo' (7 * (PI / 4))) as [L|L].
  - set (th := (Rmax lo' (PI / 4) + 7 * (PI / 4)) / 2).
    assert (Bth : PI / 4 < th < 7 * (PI / 4) /\ lo' <= th).
    { unfold th. pose proof (Rmax_l lo' (PI / 4)). pose proof (Rmax_r lo' (PI / 4)). assert (Rmax lo' (PI / 4) < 7 * (PI / 4)) by (apply Rmax_lub_lt; lra). lra. }
    apply (NS th (proj1 Bth)). apply R. exists 0%Z. lra.
  - (* only one direction: but the corner at the inner radius is seen elsewhere *)
    pose proof (R (atan2 (- (e0 l * (1 / sqrt 2))) (2 * q - e0 l * (1 / sqrt 2)))) as [R1 _].
    assert (S : 0 < 1 / sqrt 2) by (apply Rdiv_lt_0_compat; [lra|apply sqrt_lt_R0; lra]).
    assert (K : e0 l * (1 / sqrt 2) < q) by (unfold q; apply Rmult_lt_compat_r; lra).
    set (k0 := e0 l * (1 / sqrt 2)) in *.
    destruct (dir_exists (2 * q - k0) (- k0) ltac:(left; lra)) as (rho & Hrho & Hx & Hy).
    destruct R1 as [k Hk].
    { exists (2 * q - k0, - k0). split.
      - exists (e0 l), (e2 l). split; [lra|]. split; [lra|]. rewrite MT. replace (e2 l + (5 * (PI / 4) - e2 l)) with (5 * (PI / 4)) by lra.
        rewrite cos_5PI4, sin_5PI4. unfold k0. f_equal; ring.
      - exists rho. split; [auto|]. now rewrite <- Hx, <- Hy. }
    assert (Z : atan2 (- k0) (2 * q - k0) + 2 * PI * IZR k = 7 * (PI / 4)) by lra.
    rewrite <- (cos_shift' _ k), Z, (proj1 C7) in Hx. rewrite <- (sin_shift' _ k), Z, (proj2 C7) in Hy. lra.
Qed.
Lemma extents_polar_grazed : forall id p f h m c m', module_made id p POLAR f h m -> lay_type p = POLAR -> places c ->
  call_module m c = SOk m' tt ->
  let l := getLocalModuleExtent m' in sane_extent POLAR l -> e0 l < e1 l -> e3 l <= e2 l + 3 / 2 * PI ->
  negative (last_z (h ++ [c])) = false -> last_offset (h ++ [c]) = (sqrt 2 * e1 l, 0) -> last_angle (h ++ [c]) = 5 * (PI / 4) - e2 l ->
  let pl := asked POLAR (h ++ [c]) in
  e3 (getModuleExtent m') = 7 * (PI / 4) /\
  (forall th, PI / 4 < th < 7 * (PI / 4) -> ~ exists q, area POLAR l pl q /\ direction q th) /\
  ~ is_angle_range (area POLAR l pl) (e2 (getModuleExtent m')) (e3 (getModuleExtent m')).
Proof.
  intros id p f h m c m' Hm TP Pc H l S Hl Hw N O A pl. destruct (places_pp _ _ _ _ _ _ _ Hm TP Pc H) as (M' & E1 & _).
  eapply grazed_range; eauto.
Qed.
