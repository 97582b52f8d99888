(** Proofs about isPointInLadder. *)
From Coq Require Import ZArith List Bool Reals Lra Lia.
From Flocq Require Import Core.Raux.
From Verif Require Import Base RBase Trig VecModel RectSpec DiskSpec TpcModuleProofs ZpModel ZpSpec ZpProofs.
Import ListNotations.
Open Scope R_scope.

Definition szOf (p : vec) : R := if Rltb (vz p) 0 then - 1 else 1.
Lemma szOf_sqr : forall p, szOf p * szOf p = 1.
Proof. intros. unfold szOf. destruct (Rltb (vz p) 0); ring. Qed.
Lemma lZ_abs : forall p, lZ (szOf p) p = Rabs (vz p).
Proof.
  intros. unfold lZ, szOf. destruct (Rltb_spec (vz p) 0); [rewrite Rabs_left by lra; ring|rewrite Rabs_pos_eq by lra; ring].
Qed.
Lemma volume_local : forall gap q az p, in_volume gap q az p <->
  q_d q <= lX (cos az) (sin az) p <= q_d q + q_t q /\
  - q_w q / 2 - q_off q <= lY (cos az) (sin az) p <= q_w q / 2 - q_off q /\
  gap / 2 <= Rabs (vz p) <= q_len q + gap / 2.
Proof. intros. unfold in_volume, along, across, lX, lY. split; intros (A & B & C); (split; [lra|split; lra]). Qed.

Lemma part_layer : forall a q gap,
  x_left (layer_of a q) = - q_w q / 2 - q_off q /\ x_right (layer_of a q) = q_w q / 2 - q_off q /\
  x_zEnd gap (layer_of a q) = q_len q + gap / 2.
Proof. intros. unfold x_left, x_right, x_zEnd, layer_of. cbn. auto. Qed.
Lemma base_vec : forall a q i, (1 <= za_n a)%Z -> let az := azimuth a (modl (za_n a) i) in
  nBase (ladderPhi (layer_of a q) i) = mkVec (cos az) (sin az) 0 /\ nSide (ladderPhi (layer_of a q) i) = mkVec (sin az) (- cos az) 0.
Proof. intros a q i H az. unfold nBase, nSide. destruct (ladder_trig a q i H) as [E1 E2]. rewrite E1, E2. auto. Qed.

(** the vector hits_ladder works with *)
Lemma to_inner_face : forall gap a q p i, (1 <= za_n a)%Z -> 0 <= q_w q -> 0 <= q_len q ->
  let l := layer_of a q in let b := nBase (ladderPhi l i) in let az := azimuth a (modl (za_n a) i) in
  distanceToPlane p (mkVec (zl_d l * vx b) (zl_d l * vy b) (zl_d l * vz b)) b (nSide (ladderPhi l i)) (nZ p) (x_left l) (x_right l) (gap / 2) (x_zEnd gap l)
  = vsub (loc (cos az) (sin az) (szOf p) (q_d q) (clampR (- q_w q / 2 - q_off q) (q_w q / 2 - q_off q) (lY (cos az) (sin az) p))
              (clampR (gap / 2) (q_len q + gap / 2) (Rabs (vz p)))) p.
Proof.
  intros gap a q p i H Hw Hl l b az. destruct (part_layer a q gap) as (E1 & E2 & E3). fold l in E1, E2, E3. rewrite E1, E2, E3.
  destruct (base_vec a q i H) as [B1 B2]. fold l in B1, B2. unfold b. rewrite B1, B2. fold az. cbn [vx vy vz].
  unfold nZ. fold (szOf p).
  rewrite (dtp_base _ _ _ p _ (q_d q) 0 0 _ _ _ _ (cs1 az) (szOf_sqr p)); [| lra | lra |].
  - rewrite !Rminus_0_r, !Rplus_0_l, lZ_abs. reflexivity.
  - unfold loc. cbn [zl_d l layer_of]. apply vec_eq; cbn [vx vy vz]; ring.
Qed.

(** ** every point of the volume is accepted *)
Lemma hits_exact : forall gap a q p i, (1 <= za_n a)%Z -> in_volume gap q (azimuth a (modl (za_n a) i)) p ->
  hits_ladder gap (layer_of a q) p i = true.
Proof.
  intros gap a q p i H V. apply volume_local in V. destruct V as (V1 & V2 & V3).
  unfold hits_ladder. rewrite to_inner_face by (try assumption; lra).
  set (az := azimuth a (modl (za_n a) i)) in *. rewrite !clamp_id by lra.
  destruct (base_vec a q i H) as [B1 _]. rewrite B1. fold az. cbn [vx vy vz].
  set (tv := vsub _ _).
  assert (T : tv = vscale (- (lX (cos az) (sin az) p - q_d q)) (mkVec (cos az) (sin az) 0)).
  { unfold tv. rewrite (loc_self (cos az) (sin az) (szOf p) p (cs1 az) (szOf_sqr p)) at 4. rewrite lZ_abs.
    unfold loc, vsub, vscale. cbn [vx vy vz]. f_equal; ring. }
  set (k := lX (cos az) (sin az) p - q_d q) in *. assert (K : 0 <= k <= q_t q) by (unfold k; lra). clearbody tv k.
  assert (C : sqrt (vx tv * vx tv + vy tv * vy tv + vz tv * vz tv) = k).
  { rewrite T. unfold vscale. cbn [vx vy vz]. pose proof (cs1 az) as E.
    replace (- k * cos az * (- k * cos az) + - k * sin az * (- k * sin az) + - k * 0 * (- k * 0)) with (k * k * (cos az * cos az + sin az * sin az)) by ring.
    rewrite E, Rmult_1_r. apply sqrt_square. lra. }
  rewrite C, T. unfold vscale. cbn [vx vy vz]. rewrite !isEqual_refl, !orb_true_r. cbn [andb layer_of zl_t].
  apply orb_true_iff. left. apply Rleb_true. lra.
Qed.

Lemma layer_angles : forall a q i, args_ok a -> (0 <= i < za_n a)%Z -> - PI * 3 / 2 <= zl_phi (layer_of a q) <= PI / 2 /\
  0 <= IZR i * deltaPhi (layer_of a q) <= 2 * PI - deltaPhi (layer_of a q) /\ 1 / 5000 < deltaPhi (layer_of a q).
Proof.
  intros a q i [A1 A2] Hi. unfold deltaPhi, layer_of. cbn [zl_n zl_phi]. pose proof PI_RGT_0. pose proof PI2_3_2.
  assert (N : 1 <= IZR (za_n a) <= 10000) by (split; apply IZR_le; lia).
  assert (I : 0 <= IZR i <= IZR (za_n a) - 1). { split; [apply IZR_le; lia|]. rewrite <- minus_IZR. apply IZR_le. lia. }
  assert (D : 0 < 2 * PI / IZR (za_n a)) by (apply Rdiv_lt_0_compat; lra).
  split; [lra|]. split.
  - split; [apply Rmult_le_pos; lra|]. replace (2 * PI - 2 * PI / IZR (za_n a)) with ((IZR (za_n a) - 1) * (2 * PI / IZR (za_n a))) by (field; lra).
    apply Rmult_le_compat_r; lra.
  - apply Rlt_le_trans with (2 * PI / 10000); [lra|]. apply Rmult_le_compat_l; [lra|]. apply Rinv_le; lra.
Qed.

Lemma volume_in_range : forall gap a q p i, args_ok a -> (0 <= i < za_n a)%Z -> 0 < q_d q -> covers_normal q -> ~ below_origin p ->
  in_volume gap q (azimuth a (modl (za_n a) i)) p -> let l := layer_of a q in
  isInRange (getPhiPoint p) (correctPhiRange (startInnerPhi l + IZR i * deltaPhi l - EPS)) (correctPhiRange (endInnerPhi l + IZR i * deltaPhi l + EPS)) = true.
Proof.
  intros gap a q p i HA Hi Hd Hc Hb V l. pose proof PI_RGT_0 as P. pose proof PI2_3_2 as P2.
  destruct (getPhiPoint_polar p Hb) as (f & -> & Hf & rho & Hr & Fx & Fy).
  destruct (layer_angles a q i HA Hi) as (L1 & L2 & L3). fold l in L1, L2, L3.
  apply volume_local in V. set (az := azimuth a (modl (za_n a) i)) in *. destruct V as (V1 & V2 & _).
  set (X := lX (cos az) (sin az) p) in *. set (Y := lY (cos az) (sin az) p) in *.
  assert (W : - q_w q / 2 - q_off q <= 0 <= q_w q / 2 - q_off q).
  { unfold covers_normal in Hc. apply Rabs_le_inv in Hc. lra. }
  pose proof (atan_bound ((- q_w q / 2 - q_off q) / q_d q)) as B1. pose proof (atan_bound ((q_w q / 2 - q_off q) / q_d q)) as B2.
  assert (Sl : (- q_w q / 2 - q_off q) / q_d q <= Y / X).
  { apply Rle_trans with ((- q_w q / 2 - q_off q) / X).
    - unfold Rdiv. assert (/ X <= / q_d q) by (apply Rinv_le; lra). nra.
    - unfold Rdiv. apply Rmult_le_compat_r; [left; apply Rinv_0_lt_compat; lra|lra]. }
  assert (Sr : Y / X <= (q_w q / 2 - q_off q) / q_d q).
  { apply Rle_trans with ((q_w q / 2 - q_off q) / X).
    - unfold Rdiv. apply Rmult_le_compat_r; [left; apply Rinv_0_lt_compat; lra|lra].
    - unfold Rdiv. assert (/ X <= / q_d q) by (apply Rinv_le; lra). nra. }
  assert (Al : atan ((- q_w q / 2 - q_off q) / q_d q) <= atan (Y / X)) by (destruct Sl as [Sl| ->]; [left; now apply atan_increasing|right; reflexivity]).
  assert (Ar : atan (Y / X) <= atan ((q_w q / 2 - q_off q) / q_d q)) by (destruct Sr as [Sr| ->]; [left; now apply atan_increasing|right; reflexivity]).
  apply range_iff; unfold startInnerPhi, endInnerPhi; cbn [l layer_of zl_w zl_off zl_d] in *; unfold EPS; try lra.
  (* the angle of the point *)
  set (ph := ladderPhi l i). destruct (ladder_trig a q i) as [T1 T2]; [unfold args_ok in HA; lia|]. fold l ph az in T1, T2.
  assert (PX : vx p = X * sin ph + Y * cos ph).
  { rewrite T1, T2. pose proof (loc_self (cos az) (sin az) (szOf p) p (cs1 az) (szOf_sqr p)) as E. rewrite E at 1. unfold loc. cbn [vx]. reflexivity. }
  assert (PY : vy p = X * cos ph - Y * sin ph).
  { rewrite T1, T2. pose proof (loc_self (cos az) (sin az) (szOf p) p (cs1 az) (szOf_sqr p)) as E. rewrite E at 1. unfold loc. cbn [vy]. reflexivity. }
  assert (XP : 0 < X) by lra.
  assert (DX : sqrt (X * X + Y * Y) * cos (atan (Y / X)) = X /\ sqrt (X * X + Y * Y) * sin (atan (Y / X)) = Y).
  { assert (E : atan2 Y X = atan (Y / X)) by (unfold atan2; destruct (Rltb_spec 0 X); [reflexivity|lra]). rewrite <- E.
    split; [apply atan2_cos|apply atan2_sin]; left; lra. }
  set (dl := atan (Y / X)) in *. set (rr := sqrt (X * X + Y * Y)) in *. destruct DX as [DX DY].
  assert (RR : 0 < rr) by (apply sqrt_pos2; left; lra).
  assert (QX : vx p = rr * sin (ph + dl)) by (rewrite sin_plus, PX, <- DX, <- DY; ring).
  assert (QY : vy p = rr * cos (ph + dl)) by (rewrite cos_plus, PY, <- DX, <- DY; ring).
  assert (EQ : rr = rho).
  { rewrite <- (norm_polar rr (ph + dl)), <- (norm_polar rho f) by lra. rewrite <- QX, <- QY, <- Fx, <- Fy. reflexivity. }
  assert (SA : same_angle f (ph + dl)).
  { assert (SC : cos f = cos (ph + dl)) by (apply Rmult_eq_reg_l with rho; [rewrite <- Fy, QY, EQ; reflexivity|lra]).
    assert (SS : sin f = sin (ph + dl)) by (apply Rmult_eq_reg_l with rho; [rewrite <- Fx, QX, EQ; reflexivity|lra]).
    (* reduce both to the same turn *)
    assert (PB : - PI < ph <= PI).
    { unfold ph, ladderPhi. change (zl_phi l + IZR i * deltaPhi l) with (zl_phi l + IZR i * deltaPhi l). unfold correctPhiRange. rcase; [lra|]. rcase; lra. }
    assert (BD : - (PI / 2) < dl < PI / 2) by (unfold dl; pose proof (atan_bound (Y / X)); lra).
    destruct (Rle_lt_dec (ph + dl) (- PI)).
    - exists 1%Z. assert (f = ph + dl + 2 * PI); [|lra]. apply angle_unique; [|rewrite sin_plus, cos_2PI, sin_2PI; lra|lra].
      rewrite cos_plus, cos_2PI, sin_2PI. lra.
    - destruct (Rle_lt_dec (ph + dl) PI).
      + exists 0%Z. rewrite Rmult_0_r, Rplus_0_r. apply angle_unique; try assumption. lra.
      + exists (-1)%Z. assert (f = ph + dl - 2 * PI); [|lra]. apply angle_unique; [| |lra].
        * rewrite cos_minus, cos_2PI, sin_2PI. lra.
        * rewrite sin_minus, cos_2PI, sin_2PI. lra. }
  assert (SB : same_angle f (zl_phi l + IZR i * deltaPhi l + dl)).
  { eapply same_trans; [exact SA|]. destruct (correct_same (zl_phi l + IZR i * deltaPhi l)) as [k Ek]. exists k. fold l in Ek.
    unfold ph, ladderPhi. lra. }
  destruct SB as [k Ek]. exists (- k)%Z. rewrite opp_IZR. cbn [l layer_of zl_phi] in *. lra.
Qed.
