(** Proofs about distanceToNearestLadder. *)
From Coq Require Import ZArith List Bool Reals Lra Lia.
From Flocq Require Import Core.Raux.
From Verif Require Import Base RBase Trig VecModel RectSpec DiskSpec TpcModuleProofs ZpModel ZpSpec ZpProofs ZpProofs2 ZpProofs3.
Import ListNotations.
Open Scope R_scope.

(** ** angles again *)
Lemma cs_same : forall a b, cos a = cos b -> sin a = sin b -> same_angle a b.
Proof.
  intros a b C S. pose proof PI_RGT_0 as P. set (k := Zfloor ((a - b) / (2 * PI))).
  pose proof (Zfloor_lb ((a - b) / (2 * PI))) as L. pose proof (Zfloor_ub ((a - b) / (2 * PI))) as U. fold k in L, U.
  apply Rmult_le_compat_r with (r := 2 * PI) in L; [|lra]. apply Rmult_lt_compat_r with (r := 2 * PI) in U; [|lra].
  unfold Rdiv in L, U. rewrite Rmult_assoc, Rinv_l, Rmult_1_r in L, U by lra.
  assert (Q : same_angle (a - 2 * PI * IZR k) a) by (exists (- k)%Z; rewrite opp_IZR; ring).
  exists k. assert (E : a - 2 * PI * IZR k = b); [|lra].
  apply angle_unique; [rewrite (same_cos _ _ Q); exact C|rewrite (same_sin _ _ Q); exact S|lra].
Qed.
Lemma polar_unique : forall r1 r2 a b, 0 < r1 -> 0 < r2 -> r1 * cos a = r2 * cos b -> r1 * sin a = r2 * sin b -> same_angle a b.
Proof.
  intros r1 r2 a b H1 H2 C S.
  assert (E : r1 = r2). { rewrite <- (norm_polar r1 a), <- (norm_polar r2 b) by lra. rewrite C, S. reflexivity. }
  subst. apply cs_same; eapply Rmult_eq_reg_l; eauto; lra.
Qed.

(** ** the ladders that are looked at *)
Definition code_near (a : zargs) (q : zpart) (p : vec) (i : Z) : bool :=
  let l := layer_of a q in
  isInRange (getPhiPoint p) (correctPhiRange (ladderPhi l i - deltaPhi l)) (correctPhiRange (ladderPhi l i + deltaPhi l)).
Lemma ladderPhi_range : forall a q i, args_ok a -> (0 <= i < za_n a)%Z -> - PI < ladderPhi (layer_of a q) i <= PI.
Proof.
  intros a q i HA Hi. destruct (layer_angles a q i HA Hi) as (L1 & L2 & L3). pose proof PI_RGT_0.
  unfold ladderPhi. set (x := zl_phi _ + _) in *. assert (- PI * 3 / 2 <= x <= PI / 2 + (2 * PI - deltaPhi (layer_of a q))) by (unfold x; lra).
  unfold correctPhiRange. rcase; [lra|]. rcase; lra.
Qed.
Lemma delta_small : forall a q, (3 <= za_n a)%Z -> 0 < deltaPhi (layer_of a q) <= 2 * PI / 3.
Proof.
  intros a q H. unfold deltaPhi, layer_of. cbn [zl_n]. assert (3 <= IZR (za_n a)) by (apply IZR_le; lia). pose proof PI_RGT_0. split.
  - apply Rdiv_lt_0_compat; lra.
  - apply Rmult_le_compat_l; [lra|]. apply Rinv_le; lra.
Qed.
Lemma code_near_iff : forall a q p i, args_ok a -> (3 <= za_n a)%Z -> (0 <= i < za_n a)%Z -> ~ below_origin p ->
  (code_near a q p i = true <-> azimuth_within p (azimuth a (modl (za_n a) i)) (2 * PI / IZR (za_n a))).
Proof.
  intros a q p i HA H3 Hi Hb. unfold code_near. set (l := layer_of a q).
  destruct (getPhiPoint_polar p Hb) as (f & -> & Hf & rho & Hr & Fx & Fy).
  pose proof (ladderPhi_range a q i HA Hi) as PR. pose proof (delta_small a q H3) as DS. fold l in PR, DS. pose proof PI_RGT_0.
  rewrite range_iff by lra.
  assert (DE : deltaPhi l = 2 * PI / IZR (za_n a)) by reflexivity. rewrite DE in *. set (dl := 2 * PI / IZR (za_n a)) in *.
  destruct (ladder_same a q i) as [k0 K0]; [lia|]. fold l in K0. set (az := azimuth a (modl (za_n a) i)) in *.
  split.
  - intros [k Hk]. exists rho, (PI / 2 - (f + 2 * PI * IZR k) + 2 * PI * IZR k0). split; [exact Hr|].
    assert (SA : same_angle (PI / 2 - (f + 2 * PI * IZR k) + 2 * PI * IZR k0) (PI / 2 - f)).
    { exists (k0 - k)%Z. rewrite minus_IZR. ring. }
    rewrite (same_cos _ _ SA), (same_sin _ _ SA), cos_shift, sin_shift. split; [exact Fx|]. split; [exact Fy|]. apply Rabs_le. lra.
  - intros (rho' & a' & R' & X' & Y' & D'). apply Rabs_le_inv in D'.
    assert (SA : same_angle (PI / 2 - f) a').
    { apply (polar_unique rho rho'); try assumption; [rewrite cos_shift, <- Fx, X'|rewrite sin_shift, <- Fy, Y']; reflexivity. }
    destruct SA as [k Hk]. exists (k + k0)%Z. rewrite plus_IZR. lra.
Qed.

(** ** the faces *)
Section Faces.
Variables (gap : R) (a : zargs) (q : zpart) (p : vec) (i : Z).
Hypothesis (Hn : (1 <= za_n a)%Z) (Q : part_ok q) (Hg : 0 <= gap).
Let l := layer_of a q.
Let az := azimuth a (modl (za_n a) i).
Let L := loc (cos az) (sin az) (szOf p).
Let X := lX (cos az) (sin az) p.
Let Y := lY (cos az) (sin az) p.
Let Xc := q_d q + clampR 0 (q_t q) (X - q_d q).
Let Yc := clampR (- q_w q / 2 - q_off q) (q_w q / 2 - q_off q) Y.
Let Zc := clampR (gap / 2) (q_len q + gap / 2) (Rabs (vz p)).
Lemma face_base_at : forall d, face_base gap l p (ladderPhi l i) d = vsub (L (q_d q + d) Yc Zc) p.
Proof.
  intros d. destruct Q as (Q1 & Q2 & Q3 & Q4). unfold face_base. destruct (part_layer a q gap) as (E1 & E2 & E3). fold l in E1, E2, E3. rewrite E1, E2, E3.
  destruct (base_vec a q i Hn) as [B1 B2]. fold l az in B1, B2. rewrite B1, B2. unfold nZ. fold (szOf p).
  rewrite (dtp_base _ _ _ p _ (q_d q + d) 0 0 _ _ _ _ (cs1 az) (szOf_sqr p)); [|lra|lra|].
  - rewrite !Rminus_0_r, !Rplus_0_l, lZ_abs. reflexivity.
  - unfold loc, vadd, vscale. cbn [l zl_d layer_of]. apply vec_eq; cbn [vx vy vz]; ring.
Qed.
Lemma face_side_at : forall d, face_side gap l p (ladderPhi l i) d = vsub (L Xc d Zc) p.
Proof.
  intros d. destruct Q as (Q1 & Q2 & Q3 & Q4). unfold face_side. destruct (part_layer a q gap) as (E1 & E2 & E3). fold l in E1, E2, E3. rewrite E3.
  destruct (base_vec a q i Hn) as [B1 B2]. fold l az in B1, B2. rewrite B1, B2. unfold nZ. fold (szOf p).
  rewrite (dtp_side _ _ _ p _ (q_d q) d 0 _ _ _ _ (cs1 az) (szOf_sqr p)); [|cbn [l layer_of zl_t]; lra|lra|].
  - rewrite !Rminus_0_r, !Rplus_0_l, lZ_abs. reflexivity.
  - unfold loc, vadd, vscale. cbn [l zl_d layer_of]. apply vec_eq; cbn [vx vy vz]; ring.
Qed.
Lemma face_z_at : forall d, face_z l p (ladderPhi l i) d = vsub (L Xc Yc d) p.
Proof.
  intros d. destruct Q as (Q1 & Q2 & Q3 & Q4). unfold face_z. destruct (part_layer a q gap) as (E1 & E2 & E3). fold l in E1, E2, E3. rewrite E1, E2.
  destruct (base_vec a q i Hn) as [B1 B2]. fold l az in B1, B2. rewrite B1, B2. unfold nZ. fold (szOf p).
  rewrite (dtp_z _ _ _ p _ (q_d q) 0 d _ _ _ _ (cs1 az) (szOf_sqr p)); [|cbn [l layer_of zl_t]; lra|lra|].
  - rewrite !Rminus_0_r, !Rplus_0_l. reflexivity.
  - unfold loc, vadd, vscale. cbn [l zl_d layer_of]. apply vec_eq; cbn [vx vy vz]; ring.
Qed.

Lemma L_surface : forall x y z, 0 <= z -> q_d q <= x <= q_d q + q_t q -> - q_w q / 2 - q_off q <= y <= q_w q / 2 - q_off q -> gap / 2 <= z <= q_len q + gap / 2 ->
  (x = q_d q \/ x = q_d q + q_t q \/ y = - q_w q / 2 - q_off q \/ y = q_w q / 2 - q_off q \/ z = gap / 2 \/ z = q_len q + gap / 2) ->
  on_surface gap q az (vadd p (vsub (L x y z) p)).
Proof.
  intros x y z Z0 HX HY HZ S.
  assert (E : vadd p (vsub (L x y z) p) = L x y z) by (apply vec_eq; unfold vadd, vsub; cbn [vx vy vz]; ring).
  rewrite E. destruct (loc_coord (cos az) (sin az) (szOf p) x y z (cs1 az) (szOf_sqr p)) as (L1 & L2 & L3). fold (L x y z) in L1, L2, L3.
  assert (AZ : Rabs (vz (L x y z)) = z).
  { unfold L, loc. cbn [vz]. rewrite Rabs_mult, (Rabs_pos_eq z) by lra. replace (Rabs (szOf p)) with 1; [lra|].
    unfold szOf. destruct (Rltb (vz p) 0); [rewrite Rabs_left by lra|rewrite Rabs_pos_eq by lra]; lra. }
  split; [apply volume_local; rewrite L1, L2, AZ; auto|].
  assert (A1 : along az (L x y z) = x) by exact L1. assert (A2 : across az (L x y z) = - y). { unfold lY in L2. unfold across. lra. }
  rewrite A1, A2, AZ. lra.
Qed.
Lemma vlen_L : forall x y z, vlen (vsub (L x y z) p) = sqrt ((x - X) * (x - X) + (y - Y) * (y - Y) + (z - Rabs (vz p)) * (z - Rabs (vz p))).
Proof. intros. unfold vlen, L. rewrite vlen_loc by (apply cs1 || apply szOf_sqr). rewrite lZ_abs. reflexivity. Qed.
Lemma vdist_local : forall u, sqrt ((lX (cos az) (sin az) u - X) * (lX (cos az) (sin az) u - X) + (lY (cos az) (sin az) u - Y) * (lY (cos az) (sin az) u - Y)
    + (Rabs (vz u) - Rabs (vz p)) * (Rabs (vz u) - Rabs (vz p))) <= vdist p u.
Proof.
  intros u. unfold vdist. apply sqrt_le_1_alt.
  assert (A : (vx u - vx p) * (vx u - vx p) + (vy u - vy p) * (vy u - vy p) =
     (lX (cos az) (sin az) u - X) * (lX (cos az) (sin az) u - X) + (lY (cos az) (sin az) u - Y) * (lY (cos az) (sin az) u - Y)).
  { unfold X, Y, lX, lY. pose proof (cs1 az) as C.
    replace ((vx u - vx p) * (vx u - vx p) + (vy u - vy p) * (vy u - vy p)) with (((vx u - vx p) * (vx u - vx p) + (vy u - vy p) * (vy u - vy p)) * (cos az * cos az + sin az * sin az)) by (rewrite C; ring).
    ring. }
  rewrite A. assert (B : (Rabs (vz u) - Rabs (vz p)) * (Rabs (vz u) - Rabs (vz p)) <= (vz u - vz p) * (vz u - vz p)); [|lra].
  replace ((vz u - vz p) * (vz u - vz p)) with (Rabs (vz u - vz p) * Rabs (vz u - vz p)) by (rewrite <- Rabs_mult; apply Rabs_pos_eq; apply Rle_0_sqr).
  pose proof (Rabs_triang_inv (vz u) (vz p)) as T1. pose proof (Rabs_triang_inv (vz p) (vz u)) as T2. rewrite (Rabs_minus_sym (vz p) (vz u)) in T2.
  pose proof (Rabs_pos (vz u - vz p)). nra.
Qed.

(** the best of the six faces *)
Definition face_dist (b : best) : Prop := fst b = vlen (snd b).
Lemma six_spec : forall b, let b' := six_faces gap l p (ladderPhi l i) b in
  fst b' <= fst b /\ (b' = b \/ face_dist b' /\ on_surface gap q az (vadd p (snd b'))) /\
  (forall u, on_surface gap q az u -> fst b' <= vdist p u).
Proof.
  intros b b'. destruct Q as (Q1 & Q2 & Q3 & Q4).
  assert (HX : q_d q <= Xc <= q_d q + q_t q) by (pose proof (clamp_in 0 (q_t q) (X - q_d q) Q2); unfold Xc; lra).
  assert (HY : - q_w q / 2 - q_off q <= Yc <= q_w q / 2 - q_off q) by (apply clamp_in; lra).
  assert (HZ : gap / 2 <= Zc <= q_len q + gap / 2) by (apply clamp_in; lra).
  set (good := fun c : best => face_dist c /\ on_surface gap q az (vadd p (snd c))).
  assert (T1 : forall c w, on_surface gap q az (vadd p w) -> fst (take_le c w) <= fst c /\ fst (take_le c w) <= vlen w /\ (take_le c w = c \/ good (take_le c w))).
  { intros c w S. unfold take_le. destruct (Rleb_spec (vlen w) (fst c)); cbn [fst]; (split; [lra|]); (split; [lra|]); [right; split; [reflexivity|exact S]|now left]. }
  assert (T2 : forall c w, on_surface gap q az (vadd p w) -> fst (take_lt c w) <= fst c /\ fst (take_lt c w) <= vlen w /\ (take_lt c w = c \/ good (take_lt c w))).
  { intros c w S. unfold take_lt. destruct (Rltb_spec (vlen w) (fst c)); cbn [fst]; (split; [lra|]); (split; [lra|]); [right; split; [reflexivity|exact S]|now left]. }
  destruct (part_layer a q gap) as (E1 & E2 & E3). fold l in E1, E2, E3.
  assert (S1 : on_surface gap q az (vadd p (face_base gap l p (ladderPhi l i) 0))) by (rewrite face_base_at, Rplus_0_r; apply L_surface; lra).
  assert (S2 : on_surface gap q az (vadd p (face_base gap l p (ladderPhi l i) (zl_t l)))) by (rewrite face_base_at; cbn [l layer_of zl_t]; apply L_surface; lra).
  assert (S3 : on_surface gap q az (vadd p (face_side gap l p (ladderPhi l i) (x_left l)))) by (rewrite face_side_at, E1; apply L_surface; lra).
  assert (S4 : on_surface gap q az (vadd p (face_side gap l p (ladderPhi l i) (x_right l)))) by (rewrite face_side_at, E2; apply L_surface; lra).
  assert (S5 : on_surface gap q az (vadd p (face_z l p (ladderPhi l i) (x_zEnd gap l)))) by (rewrite face_z_at, E3; apply L_surface; lra).
  assert (S6 : on_surface gap q az (vadd p (face_z l p (ladderPhi l i) (gap / 2)))) by (rewrite face_z_at; apply L_surface; lra).
  unfold b', six_faces.
  set (b1 := take_le b _). set (b2 := take_le b1 _). set (b3 := take_lt b2 _). set (b4 := take_lt b3 _). set (b5 := take_lt b4 _). set (b6 := take_lt b5 _).
  destruct (T1 b _ S1) as (A1 & A2 & A3). fold b1 in A1, A2, A3. destruct (T1 b1 _ S2) as (B1 & B2 & B3). fold b2 in B1, B2, B3.
  destruct (T2 b2 _ S3) as (C1 & C2 & C3). fold b3 in C1, C2, C3. destruct (T2 b3 _ S4) as (D1 & D2 & D3). fold b4 in D1, D2, D3.
  destruct (T2 b4 _ S5) as (F1 & F2 & F3). fold b5 in F1, F2, F3. destruct (T2 b5 _ S6) as (G1 & G2 & G3). fold b6 in G1, G2, G3.
  split; [lra|]. split.
  - change (b6 = b \/ good b6). destruct G3 as [->|?]; [|now right]. destruct F3 as [->|?]; [|now right]. destruct D3 as [->|?]; [|now right].
    destruct C3 as [->|?]; [|now right]. destruct B3 as [->|?]; [|now right]. exact A3.
  - intros u [V W]. pose proof (vdist_local u) as VD. apply volume_local in V. destruct V as (V1 & V2 & V3).
    assert (NX : (Xc - X) * (Xc - X) <= (lX (cos az) (sin az) u - X) * (lX (cos az) (sin az) u - X)).
    { unfold Xc. pose proof (clamp_near 0 (q_t q) (X - q_d q) (lX (cos az) (sin az) u - q_d q)) as N.
      replace (q_d q + clampR 0 (q_t q) (X - q_d q) - X) with (clampR 0 (q_t q) (X - q_d q) - (X - q_d q)) by ring.
      replace (lX (cos az) (sin az) u - X) with (lX (cos az) (sin az) u - q_d q - (X - q_d q)) by ring. apply N. lra. }
    pose proof (clamp_near _ _ Y _ V2) as NY. fold Yc in NY. pose proof (clamp_near _ _ (Rabs (vz p)) _ V3) as NZ. fold Zc in NZ.
    assert (AC : across az u = - lY (cos az) (sin az) u) by (unfold across, lY; ring). assert (AL : along az u = lX (cos az) (sin az) u) by reflexivity.
    rewrite AC, AL in W.
    apply Rle_trans with (2 := VD).
    destruct W as [W|[W|[W|[W|[W|W]]]]].
    + apply Rle_trans with (vlen (face_base gap l p (ladderPhi l i) 0)); [lra|]. rewrite face_base_at, Rplus_0_r, vlen_L, W. apply sqrt_le_1_alt. lra.
    + apply Rle_trans with (vlen (face_base gap l p (ladderPhi l i) (zl_t l))); [lra|]. rewrite face_base_at, vlen_L, W. cbn [l layer_of zl_t]. apply sqrt_le_1_alt. lra.
    + apply Rle_trans with (vlen (face_side gap l p (ladderPhi l i) (x_right l))); [lra|]. rewrite face_side_at, vlen_L, E2.
      replace (lY (cos az) (sin az) u) with (q_w q / 2 - q_off q) by lra. apply sqrt_le_1_alt. lra.
    + apply Rle_trans with (vlen (face_side gap l p (ladderPhi l i) (x_left l))); [lra|]. rewrite face_side_at, vlen_L, E1.
      replace (lY (cos az) (sin az) u) with (- q_w q / 2 - q_off q) by lra. apply sqrt_le_1_alt. lra.
    + apply Rle_trans with (vlen (face_z l p (ladderPhi l i) (gap / 2))); [lra|]. rewrite face_z_at, vlen_L, W. apply sqrt_le_1_alt. lra.
    + apply Rle_trans with (vlen (face_z l p (ladderPhi l i) (x_zEnd gap l))); [lra|]. rewrite face_z_at, vlen_L, E3, W.
      apply sqrt_le_1_alt. replace (gap / 2 + q_len q) with (q_len q + gap / 2) by ring. lra.
Qed.
End Faces.

(** ** the loops *)

Lemma near_ladders_spec : forall gap a q p n i0 b, args_ok a -> (3 <= za_n a)%Z -> part_ok q -> 0 <= gap -> ~ below_origin p ->
  (0 <= i0)%Z -> (i0 + Z.of_nat n <= za_n a)%Z ->
  let b' := near_ladders gap (layer_of a q) p (getPhiPoint p) n i0 b in
  fst b' <= fst b /\
  (b' = b \/ face_dist b' /\ exists m, (0 <= m < za_n a)%Z /\ azimuth_within p (azimuth a m) (2 * PI / IZR (za_n a)) /\ on_surface gap q (azimuth a m) (vadd p (snd b'))) /\
  (forall i u, (i0 <= i < i0 + Z.of_nat n)%Z -> azimuth_within p (azimuth a (modl (za_n a) i)) (2 * PI / IZR (za_n a)) ->
     on_surface gap q (azimuth a (modl (za_n a) i)) u -> fst b' <= vdist p u).
Proof.
  intros gap a q p n. induction n as [|n IH]; intros i0 b HA H3 HQ Hg Hb H0 HN b'.
  - cbn in b'. subst b'. split; [lra|]. split; [now left|]. intros; lia.
  - cbn [near_ladders] in b'.
    set (b1 := if isInRange _ _ _ then _ else _) in b'.
    destruct (IH (i0 + 1)%Z b1) as (A & B & C); try assumption; try lia. fold b' in A, B, C.
    pose proof (code_near_iff a q p i0 HA H3) as CN. unfold code_near in CN. cbv zeta in CN.
    set (r := isInRange (getPhiPoint p) (correctPhiRange (ladderPhi (layer_of a q) i0 - deltaPhi (layer_of a q)))
              (correctPhiRange (ladderPhi (layer_of a q) i0 + deltaPhi (layer_of a q)))) in *.
    specialize (CN ltac:(lia) Hb). destruct r.
    + destruct (six_spec gap a q p i0 ltac:(lia) HQ Hg b) as (S1 & S2 & S3). fold b1 in S1, S2, S3.
      split; [lra|]. split.
      * destruct B as [->|B]; [|now right]. destruct S2 as [->|[S2 S4]]; [now left|]. right. split; [exact S2|].
        exists (modl (za_n a) i0). split; [apply modl_range; lia|]. split; [now apply CN|exact S4].
      * intros i u Hi HW HS. destruct (Z.eq_dec i i0) as [->|]; [apply S3 in HS; lra|]. apply (C i); [lia|assumption|assumption].
    + split; [exact A|]. split; [exact B|]. intros i u Hi HW HS. destruct (Z.eq_dec i i0) as [->|].
      * apply CN in HW. discriminate.
      * apply (C i); [lia|assumption|assumption].
Qed.
Lemma near_layers_spec : forall gap sensitive p h b, 0 <= gap -> ~ below_origin p ->
  (forall a, In a h -> args_ok a /\ (3 <= za_n a)%Z /\ part_ok (part_of a sensitive)) ->
  let b' := near_layers gap (map (fun a => layer_of a (part_of a sensitive)) h) p (getPhiPoint p) b in
  fst b' <= fst b /\
  (b' = b \/ face_dist b' /\ exists a m, looked_at h p a m /\ on_surface gap (part_of a sensitive) (azimuth a m) (vadd p (snd b'))) /\
  (forall a m u, looked_at h p a m -> on_surface gap (part_of a sensitive) (azimuth a m) u -> fst b' <= vdist p u).
Proof.
  intros gap sensitive p h. induction h as [|a h IH]; intros b Hg Hb HH b'.
  - cbn in b'. subst b'. split; [lra|]. split; [now left|]. intros a m u [[] _].
  - unfold near_layers in b'. cbn [map fold_left] in b'. set (q := part_of a sensitive) in *.
    set (b1 := near_ladders _ _ _ _ _ _ b) in b'. destruct (HH a (or_introl eq_refl)) as (HA & H3 & HQ).
    destruct (near_ladders_spec gap a q p (Z.to_nat (zl_n (layer_of a q))) 0 b) as (A & B & C); try assumption; [lia|cbn; lia|]. fold b1 in A, B, C.
    destruct (IH b1 Hg Hb (fun x Hx => HH x (or_intror Hx))) as (D & E & F).
    change (near_layers gap (map (fun a => layer_of a (part_of a sensitive)) h) p (getPhiPoint p) b1) with b' in D, E, F.
    split; [lra|]. split.
    + destruct E as [->|(E1 & a' & m & (M1 & M2) & E2)].
      * destruct B as [->|(B1 & m & M1 & M2 & M3)]; [now left|]. right. split; [exact B1|]. exists a, m. split; [|exact M3]. split; [now left|auto].
      * right. split; [exact E1|]. exists a', m. split; [|exact E2]. split; [now right|exact M2].
    + intros a' m u ([<-|Hin] & M1 & M2) HS.
      * specialize (C (modl (za_n a) m) u). rewrite modl_modl in C by assumption.
        assert (fst b1 <= vdist p u); [|lra]. apply C; [cbn; pose proof (modl_range (za_n a) m M1); lia|assumption|assumption].
      * apply (F a' m); [split; [assumption|split; assumption]|assumption].
Qed.

Lemma nearest_ladder : forall type rIn rOut half gap rad h sensitive p, 0 <= gap ->
  (forall a, In a h -> args_ok a /\ (3 <= za_n a)%Z /\ part_ok (part_of a sensitive)) ->
  ~ below_origin p -> isPointInLadder (zp_made type rIn rOut half gap rad h) p sensitive = None ->
  (exists a m u, looked_at h p a m /\ on_surface gap (part_of a sensitive) (azimuth a m) u /\ vdist p u < 99999.99) ->
  let v := distanceToNearestLadder (zp_made type rIn rOut half gap rad h) p sensitive in
  (exists a m, looked_at h p a m /\ on_surface gap (part_of a sensitive) (azimuth a m) (vadd p v)) /\
  (forall a m u, looked_at h p a m -> on_surface gap (part_of a sensitive) (azimuth a m) u -> vlen v <= vdist p u).
Proof.
  intros type rIn rOut half gap rad h sensitive p Hg HH Hb HN (a0 & m0 & u0 & K1 & K2 & K3) v.
  destruct (made_parts type rIn rOut half gap rad h sensitive) as (E1 & E2 & E3).
  assert (Ev : v = snd (near_layers gap (map (fun a => layer_of a (part_of a sensitive)) h) p (getPhiPoint p) (9999999 / 100, vzero))).
  { unfold v, distanceToNearestLadder. rewrite HN.
    assert (O : (Reqb (vx p) 0 && Reqb (vy p) 0 && Reqb (vz p) 0)%bool = false).
    { unfold below_origin in Hb. destruct (Reqb_spec (vx p) 0); [|reflexivity]. destruct (Reqb_spec (vy p) 0); [lra|reflexivity]. }
    rewrite O, E1, E3. reflexivity. }
  clearbody v. subst v. set (b := near_layers _ _ _ _ _). destruct (near_layers_spec gap sensitive p h (9999999 / 100, vzero) Hg Hb HH) as (A & B & C).
  fold b in A, B, C. pose proof (C _ _ _ K1 K2) as L.
  destruct B as [B|(B1 & a & m & B2 & B3)]; [rewrite B in L; cbn [fst] in L; lra|].
  split; [exists a, m; split; assumption|]. intros a' m' u H1 H2. rewrite <- B1. eapply C; eauto.
Qed.

(** ** fewer than three ladders *)
Lemma few_range : forall f phi, - PI < f <= PI -> - PI < phi <= PI -> forall n, (n = 1 \/ n = 2)%Z ->
  isInRange (Some f) (correctPhiRange (phi - 2 * PI / IZR n)) (correctPhiRange (phi + 2 * PI / IZR n)) = true ->
  exists k : Z, f = phi + IZR k * (2 * PI / IZR n) .
Proof.
  intros f phi Hf Hp n Hn H. pose proof PI_RGT_0. destruct Hn as [-> | ->].
  - replace (2 * PI / 1) with (2 * PI) in * by field. unfold isInRange, correctPhiRange in H.
    destruct (Rltb_spec PI (phi - 2 * PI)); [lra|]. destruct (Rleb_spec (phi - 2 * PI) (- PI)); [|lra].
    destruct (Rltb_spec PI (phi + 2 * PI)); [|lra]. rewrite !orb_true_iff, !andb_true_iff, !Rleb_true, !Rltb_true in H.
    exists 0%Z. rewrite Rmult_0_l. destruct H as [[H|H]|H]; lra.
  - replace (2 * PI / 2) with PI in * by field. unfold isInRange, correctPhiRange in H.
    destruct (Rltb_spec PI (phi - PI)); [lra|]. destruct (Rleb_spec (phi - PI) (- PI)), (Rltb_spec PI (phi + PI)); try lra;
    try (destruct (Rleb_spec (phi + PI) (- PI)); [lra|]); rewrite !orb_true_iff, !andb_true_iff, !Rleb_true, !Rltb_true in H.
    + exists 1%Z. rewrite Rmult_1_l. destruct H as [[H|H]|H]; lra.
    + exists (-1)%Z. destruct H as [[H|H]|H]; lra.
Qed.
Lemma few_none : forall gap a q p n i0 b, args_ok a -> (za_n a <= 2)%Z -> ~ below_origin p ->
  (forall m, ~ azimuth_within p (azimuth a m) 0) -> (0 <= i0)%Z -> (i0 + Z.of_nat n <= za_n a)%Z ->
  near_ladders gap (layer_of a q) p (getPhiPoint p) n i0 b = b.
Proof.
  intros gap a q p n. induction n as [|n IH]; intros i0 b HA H2 Hb Hno H0 HN; [reflexivity|].
  cbn [near_ladders]. destruct (isInRange _ _ _) eqn:R; [|apply IH; try assumption; lia].
  exfalso. destruct (getPhiPoint_polar p Hb) as (f & Ef & Hf & rho & Hr & Fx & Fy). rewrite Ef in R.
  pose proof (ladderPhi_range a q i0 HA ltac:(lia)) as PR. apply few_range in R; try assumption; [|cbn [layer_of zl_n]; unfold args_ok in HA; lia].
  destruct R as [k Hk]. cbn [layer_of zl_n] in Hk.
  destruct (ladder_same a q i0) as [k0 K0]; [unfold args_ok in HA; lia|].
  assert (N0 : IZR (za_n a) <> 0) by (apply not_0_IZR; unfold args_ok in HA; lia).
  apply (Hno (modl (za_n a) i0 - k - k0 * za_n a)%Z). exists rho, (PI / 2 - f). split; [exact Hr|]. rewrite cos_shift, sin_shift.
  split; [exact Fx|]. split; [exact Fy|]. rewrite Hk, K0. unfold azimuth. rewrite !minus_IZR, mult_IZR.
  match goal with |- Rabs ?e <= 0 => replace e with 0 by (field; assumption) end. rewrite Rabs_R0. lra.
Qed.
Lemma few_ladders : forall type rIn rOut half gap rad h sensitive p,
  (forall a, In a h -> args_ok a /\ (za_n a <= 2)%Z) -> ~ below_origin p ->
  (forall a m, In a h -> ~ azimuth_within p (azimuth a m) 0) ->
  distanceToNearestLadder (zp_made type rIn rOut half gap rad h) p sensitive = vzero.
Proof.
  intros type rIn rOut half gap rad h sensitive p HH Hb Hno. unfold distanceToNearestLadder.
  destruct (isPointInLadder _ _ _); [reflexivity|].
  assert (O : (Reqb (vx p) 0 && Reqb (vy p) 0 && Reqb (vz p) 0)%bool = false).
  { unfold below_origin in Hb. destruct (Reqb_spec (vx p) 0); [|reflexivity]. destruct (Reqb_spec (vy p) 0); [lra|reflexivity]. }
  rewrite O. destruct (made_parts type rIn rOut half gap rad h sensitive) as (E1 & E2 & E3). rewrite E1, E3.
  assert (G : forall b, near_layers gap (map (fun a => layer_of a (part_of a sensitive)) h) p (getPhiPoint p) b = b); [|rewrite G; reflexivity].
  clear E1 E2 E3. induction h as [|a h IH]; intros b; [reflexivity|]. unfold near_layers. cbn [map fold_left].
  destruct (HH a (or_introl eq_refl)) as [HA H2].
  rewrite few_none; try assumption; [|intros m; apply (Hno a m); now left|lia|cbn; unfold args_ok in HA; lia].
  apply IH; [intros; apply HH; now right|intros; apply Hno; now right].
Qed.
Lemma distance_inside : forall type rIn rOut half gap rad h sensitive p,
  isPointInLadder (zp_made type rIn rOut half gap rad h) p sensitive <> None ->
  distanceToNearestLadder (zp_made type rIn rOut half gap rad h) p sensitive = vzero.
Proof. intros. unfold distanceToNearestLadder. destruct (isPointInLadder _ _ _); [reflexivity|contradiction]. Qed.
Lemma distance_origin : forall type rIn rOut half gap rad a h sensitive,
  isPointInLadder (zp_made type rIn rOut half gap rad (a :: h)) vzero sensitive = None ->
  along (za_phi0 a) (distanceToNearestLadder (zp_made type rIn rOut half gap rad (a :: h)) vzero sensitive) = 0.
Proof.
  intros type rIn rOut half gap rad a h sensitive H. unfold distanceToNearestLadder. rewrite H. cbn [vzero vx vy vz].
  destruct (Reqb_spec 0 0); [|lra]. cbn [andb]. rewrite (proj1 (made_l type rIn rOut half gap rad (a :: h))). cbn [map layer_of zl_d zl_phi].
  unfold along, vcylindrical. cbn [vx vy]. replace (- (PI / 2 - za_phi0 a)) with (- (PI / 2 - za_phi0 a)) by ring. rewrite cos_neg, sin_neg, cos_shift, sin_shift. ring.
Qed.
