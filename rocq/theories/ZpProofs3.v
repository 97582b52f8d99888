(** Proofs about isPointInLadder, continued: the loops, completeness and soundness. *)
From Coq Require Import ZArith List Bool Reals Lra Lia.
From Flocq Require Import Core.Raux.
From Verif Require Import Base RBase Trig VecModel RectSpec DiskSpec TpcModuleProofs ZpModel ZpSpec ZpProofs ZpProofs2.
Import ListNotations.
Open Scope R_scope.

(** ** the detector made by addLayer calls *)
Lemma made_from : forall h z, let z' := fold_left zp_addLayer h z in
  z_l z' = z_l z ++ map (fun a => layer_of a (za_lad a)) h /\ z_s z' = z_s z ++ map (fun a => layer_of a (za_sen a)) h /\
  z_half z' = z_half z /\ z_gap z' = z_gap z.
Proof.
  induction h as [|a h IH]; intros z; cbn [fold_left map]; [rewrite !app_nil_r; auto|].
  destruct (IH (zp_addLayer z a)) as (A & B & C & D). cbv zeta. rewrite A, B, C, D. cbn. rewrite <- !app_assoc. auto.
Qed.
Lemma made_parts : forall type rIn rOut half gap rad h sensitive, let z := zp_made type rIn rOut half gap rad h in
  z_part z sensitive = map (fun a => layer_of a (part_of a sensitive)) h /\ z_half z = half /\ z_gap z = gap.
Proof.
  intros. destruct (made_from h (new_zplanar type rIn rOut half gap rad)) as (A & B & C & D). unfold z, zp_made, z_part.
  rewrite C, D. split; [|auto]. destruct sensitive; [rewrite B|rewrite A]; reflexivity.
Qed.
Lemma made_l : forall type rIn rOut half gap rad h, let z := zp_made type rIn rOut half gap rad h in
  z_l z = map (fun a => layer_of a (za_lad a)) h /\ z_s z = map (fun a => layer_of a (za_sen a)) h.
Proof. intros. destruct (made_from h (new_zplanar type rIn rOut half gap rad)) as (A & B & _). unfold z, zp_made. rewrite A, B. auto. Qed.

(** ** loops *)
Lemma ladder_loop_found : forall gap l p f n i0 i, (i0 <= i < i0 + Z.of_nat n)%Z ->
  isInRange f (correctPhiRange (startInnerPhi l + IZR i * deltaPhi l - EPS)) (correctPhiRange (endInnerPhi l + IZR i * deltaPhi l + EPS)) = true ->
  hits_ladder gap l p i = true -> ladder_loop gap l p f n i0 <> None.
Proof.
  induction n as [|n IH]; intros i0 i Hi R H; [lia|]. cbn [ladder_loop].
  destruct (Z.eq_dec i i0) as [->|].
  - rewrite R, H. discriminate.
  - match goal with |- (if ?b then _ else _) <> None => destruct b end; [apply (IH _ i); [lia|assumption|assumption]|].
    destruct (hits_ladder gap l p i0); [discriminate|]. apply (IH _ i); [lia|assumption|assumption].
Qed.
Lemma ladder_loop_inv : forall gap l p f n i0 i, ladder_loop gap l p f n i0 = Some i ->
  (i0 <= i < i0 + Z.of_nat n)%Z /\ hits_ladder gap l p i = true /\
  isInRange f (correctPhiRange (startInnerPhi l + IZR i * deltaPhi l - EPS)) (correctPhiRange (endInnerPhi l + IZR i * deltaPhi l + EPS)) = true.
Proof.
  induction n as [|n IH]; intros i0 i H; cbn [ladder_loop] in H; [discriminate|].
  match type of H with (if negb ?b then _ else _) = _ => destruct b eqn:B end; cbn [negb] in H.
  - destruct (hits_ladder gap l p i0) eqn:E.
    + injection H as <-. split; [lia|]. auto.
    + apply IH in H. split; [lia|tauto].
  - apply IH in H. split; [lia|tauto].
Qed.

Definition layer_accepts (gap : R) (p : vec) (l : zlayer) : Prop :=
  zl_d l - EPS <= sqrt (vx p * vx p + vy p * vy p) <= maxRadius l + EPS /\ Rabs (vz p) <= zl_len l + gap / 2 + EPS /\
  ladder_loop gap l p (getPhiPoint p) (Z.to_nat (zl_n l)) 0 <> None.
Lemma layer_loop_found : forall gap p ls k l, In l ls -> layer_accepts gap p l -> layer_loop gap ls p (getPhiPoint p) k <> None.
Proof.
  induction ls as [|x ls IH]; intros k l Hin A; [destruct Hin|]. cbn [layer_loop].
  destruct Hin as [->|Hin].
  - destruct A as (A1 & A2 & A3). do 3 (rcase; [lra|]). destruct (ladder_loop _ _ _ _ _ _); [discriminate|contradiction].
  - repeat (rcase; [eapply IH; eauto|]). destruct (ladder_loop _ _ _ _ _ _); [discriminate|eapply IH; eauto].
Qed.
Lemma layer_loop_inv : forall gap p f ls k id, layer_loop gap ls p f k = Some id ->
  exists j l i, nth_error ls j = Some l /\ s_layer id = (k + Z.of_nat j)%Z /\ (0 <= i < zl_n l)%Z /\
    s_module id = modl (zl_n l) i /\ s_side id = (if Rleb 0 (vz p) then 1 else -1)%Z /\ hits_ladder gap l p i = true.
Proof.
  induction ls as [|x ls IH]; intros k id H; cbn [layer_loop] in H; [discriminate|].
  assert (G : layer_loop gap ls p f (k + 1) = Some id -> exists j l i, nth_error (x :: ls) j = Some l /\ s_layer id = (k + Z.of_nat j)%Z /\ (0 <= i < zl_n l)%Z /\
    s_module id = modl (zl_n l) i /\ s_side id = (if Rleb 0 (vz p) then 1 else -1)%Z /\ hits_ladder gap l p i = true).
  { intros H'. destruct (IH _ _ H') as (j & l & i & A & B & C). exists (S j), l, i. cbn [nth_error]. split; [exact A|]. split; [lia|exact C]. }
  destruct (Rltb _ _) in H; [now apply G|]. destruct (Rltb _ _) in H; [now apply G|]. destruct (Rltb _ _) in H; [now apply G|].
  destruct (ladder_loop _ _ _ _ _ _) as [i|] eqn:L; [|now apply G]. injection H as <-.
  apply ladder_loop_inv in L. destruct L as (L1 & L2 & _). exists 0%nat, x, i. cbn. unfold modl.
  split; [reflexivity|]. split; [lia|]. split; [lia|]. auto.
Qed.

(** ** completeness *)
Lemma in_volume_accepted : forall gap a q m p, args_ok a -> (0 <= m < za_n a)%Z -> 0 < q_d q -> covers_normal q -> ~ below_origin p ->
  in_volume gap q (azimuth a m) p -> layer_accepts gap p (layer_of a q).
Proof.
  intros gap a q m p HA Hm Hd Hc Hb V. unfold layer_accepts. pose proof V as V'. apply volume_local in V'.
  set (az := azimuth a m) in *. destruct V' as (V1 & V2 & V3).
  set (X := lX (cos az) (sin az) p) in *. set (Y := lY (cos az) (sin az) p) in *.
  assert (RR : vx p * vx p + vy p * vy p = X * X + Y * Y).
  { pose proof (loc_self (cos az) (sin az) (szOf p) p (cs1 az) (szOf_sqr p)) as E. fold X Y in E.
    assert (Ex : vx p = X * cos az + Y * sin az) by (rewrite E at 1; reflexivity).
    assert (Ey : vy p = X * sin az - Y * cos az) by (rewrite E at 1; reflexivity).
    rewrite Ex, Ey. pose proof (cs1 az) as C. replace (X * X + Y * Y) with ((X * X + Y * Y) * (cos az * cos az + sin az * sin az)) by (rewrite C; ring). ring. }
  rewrite RR. unfold EPS. split; [|split].
  - split.
    + apply Rle_trans with X; [unfold layer_of; cbn; lra|]. rewrite <- (sqrt_square X) at 1 by lra. apply sqrt_le_1_alt. nra.
    + apply Rle_trans with (maxRadius (layer_of a q)); [|lra]. unfold maxRadius, layer_of. cbn [zl_d zl_t zl_w zl_off]. apply sqrt_le_1_alt.
      assert (A : Rabs Y <= q_w q / 2 + Rabs (q_off q)). { apply Rabs_le. pose proof (Rle_abs (q_off q)). pose proof (Rle_abs (- q_off q)). rewrite Rabs_Ropp in H0. lra. }
      assert (X * X <= (q_d q + q_t q) * (q_d q + q_t q)) by nra.
      assert (Y * Y <= (q_w q / 2 + Rabs (q_off q)) * (q_w q / 2 + Rabs (q_off q))).
      { replace (Y * Y) with (Rabs Y * Rabs Y) by (rewrite <- Rabs_mult; apply Rabs_pos_eq; nra). pose proof (Rabs_pos Y). nra. }
      lra.
  - unfold layer_of. cbn. lra.
  - assert (M : modl (za_n a) (modl (za_n a) m) = m) by (apply modl_modl; lia). assert (I := modl_range (za_n a) m Hm).
    apply (ladder_loop_found _ _ _ _ _ _ (modl (za_n a) m)).
    + cbn [layer_of zl_n]. lia.
    + eapply volume_in_range; try eassumption. rewrite M. exact V.
    + apply hits_exact; [lia|]. rewrite M. exact V.
Qed.
Lemma point_in_ladder : forall type rIn rOut half gap rad h sensitive a m p,
  In a h -> args_ok a -> (0 <= m < za_n a)%Z -> 0 < q_d (part_of a sensitive) -> covers_normal (part_of a sensitive) ->
  in_volume gap (part_of a sensitive) (azimuth a m) p -> within_shell half gap p -> ~ below_origin p ->
  isPointInLadder (zp_made type rIn rOut half gap rad h) p sensitive <> None.
Proof.
  intros type rIn rOut half gap rad h sensitive a m p Ha HA Hm Hd Hc V S Hb. unfold isPointInLadder.
  destruct (made_parts type rIn rOut half gap rad h sensitive) as (E1 & E2 & E3). rewrite E1, E2, E3.
  assert (B : (Rltb (1 / 1000) (Rabs half) && (Rltb (half + gap / 2) (Rabs (vz p)) || Rltb (Rabs (vz p)) (gap / 2)))%bool = false).
  { unfold within_shell in S. destruct (Rltb_spec (1 / 1000) (Rabs half)); [|reflexivity]. specialize (S H).
    destruct (Rltb_spec (half + gap / 2) (Rabs (vz p))); [lra|]. destruct (Rltb_spec (Rabs (vz p)) (gap / 2)); [lra|reflexivity]. }
  rewrite B. apply layer_loop_found with (layer_of a (part_of a sensitive)).
  - apply in_map_iff. eauto.
  - eapply in_volume_accepted; eauto.
Qed.

(** ** soundness *)
Lemma isEqual_bound : forall a b, isEqual a b = true -> Rabs (a - b) <= 2 * EPS \/ 2 * Rabs (a - b) <= EPS * (Rabs a + Rabs b).
Proof.
  intros a b H. unfold isEqual in H. assert (0 < EPS) by (unfold EPS; lra).
  destruct (Reqb_spec a b) as [->|N]; [left; rewrite Rminus_diag_eq, Rabs_R0 by reflexivity; lra|].
  destruct (Reqb_spec (a * b) 0). { apply Rltb_true in H. left. lra. }
  destruct (Rltb_spec (Rabs a) EPS), (Rltb_spec (Rabs b) EPS); cbn [andb] in H;
    try (left; pose proof (Rabs_triang a (- b)); rewrite Rabs_Ropp in *; unfold Rminus; lra).
  all: right; apply Rltb_true in H; assert (A : a <> 0) by (intros ->; rewrite Rmult_0_l in *; contradiction);
    pose proof (Rabs_pos_lt a A); pose proof (Rabs_pos b);
    rewrite Rabs_mult, (Rabs_pos_eq 2) in H by lra; apply Rmult_lt_compat_r with (r := Rabs a + Rabs b) in H; [|lra];
    unfold Rdiv in H; rewrite Rmult_assoc, Rinv_l in H by lra; lra.
Qed.
Lemma comp_bound : forall n t c, Rabs n <= 1 -> Rabs t <= c -> (differsLess n t || isEqual t (- c * n))%bool = true ->
  Rabs (t + c * n) <= EPS * (2 + c).
Proof.
  intros n t c Hn Ht H. assert (E : 0 < EPS) by (unfold EPS; lra). assert (C0 : 0 <= c) by (pose proof (Rabs_pos t); lra).
  assert (Cn : Rabs (c * n) <= c). { rewrite Rabs_mult, (Rabs_pos_eq c) by lra. pose proof (Rabs_pos n). nra. }
  apply orb_true_iff in H. destruct H as [H|H].
  - unfold differsLess in H. apply Rltb_true in H. pose proof (Rabs_pos n). pose proof (Rabs_pos t).
    pose proof (Rabs_triang t (c * n)). assert (Rabs (c * n) <= EPS * c). { rewrite Rabs_mult, (Rabs_pos_eq c) by lra. nra. } lra.
  - apply isEqual_bound in H. replace (t - - c * n) with (t + c * n) in H by ring.
    assert (A : Rabs (- c * n) = Rabs (c * n)) by (rewrite <- Rabs_Ropp; f_equal; ring). rewrite A in H.
    destruct H as [H|H]; nra.
Qed.
Lemma three_bound : forall x y z e, 0 <= e -> Rabs x <= e -> Rabs y <= e -> Rabs z <= e -> sqrt (x * x + y * y + z * z) <= 7 / 4 * e.
Proof.
  intros x y z e E X Y Z. rewrite <- (sqrt_square (7 / 4 * e)) by lra. apply sqrt_le_1_alt.
  apply Rabs_le_inv in X, Y, Z. assert (x * x <= e * e) by nra. assert (y * y <= e * e) by nra. assert (z * z <= e * e) by nra. nra.
Qed.
Lemma comp_le_len : forall x y z, Rabs x <= sqrt (x * x + y * y + z * z) /\ Rabs y <= sqrt (x * x + y * y + z * z) /\ Rabs z <= sqrt (x * x + y * y + z * z).
Proof.
  intros. repeat split; (match goal with |- Rabs ?u <= _ => rewrite <- (sqrt_square (Rabs u)) by apply Rabs_pos; rewrite <- Rabs_mult, Rabs_pos_eq by nra end);
    apply sqrt_le_1_alt; nra.
Qed.
Lemma hits_near : forall gap a q p i, (1 <= za_n a)%Z -> part_ok q -> 0 <= gap -> hits_ladder gap (layer_of a q) p i = true ->
  exists p', in_volume gap q (azimuth a (modl (za_n a) i)) p' /\ vdist p p' <= 1 / 1000 * (1 + q_t q).
Proof.
  intros gap a q p i Hn (Q1 & Q2 & Q3 & Q4) Hg H. unfold hits_ladder in H. rewrite to_inner_face in H by assumption.
  set (az := azimuth a (modl (za_n a) i)) in *. destruct (base_vec a q i Hn) as [B1 _]. rewrite B1 in H. fold az in H. cbn [vx vy vz] in H.
  set (Yc := clampR _ _ (lY _ _ _)) in H. set (Zc := clampR _ _ (Rabs _)) in H.
  assert (HY : - q_w q / 2 - q_off q <= Yc <= q_w q / 2 - q_off q) by (apply clamp_in; lra).
  assert (HZ : gap / 2 <= Zc <= q_len q + gap / 2) by (apply clamp_in; lra). clearbody Yc Zc.
  set (tv := vsub _ _) in H. set (c := sqrt (vx tv * vx tv + vy tv * vy tv + vz tv * vz tv)) in H.
  apply andb_true_iff in H. destruct H as [H H4]. apply andb_true_iff in H. destruct H as [H H3]. apply andb_true_iff in H. destruct H as [H1 H2].
  destruct (comp_le_len (vx tv) (vy tv) (vz tv)) as (C1 & C2 & C3). fold c in C1, C2, C3.
  assert (C0 : 0 <= c) by apply sqrt_pos.
  apply comp_bound in H1; [|apply Rabs_le; pose proof (COS_bound az); lra|exact C1].
  apply comp_bound in H2; [|apply Rabs_le; pose proof (SIN_bound az); lra|exact C2].
  apply comp_bound in H3; [|rewrite Rabs_R0; lra|exact C3].
  cbn [layer_of zl_t] in H4.
  assert (K : exists k, 0 <= k <= q_t q /\ Rabs (k - c) <= EPS * (2 + c) /\ c <= q_t q + EPS * (2 + c)).
  { assert (0 < EPS) by (unfold EPS; lra). destruct (Rle_lt_dec c (q_t q)).
    - exists c. split; [lra|]. rewrite Rminus_diag_eq, Rabs_R0 by reflexivity. split; nra.
    - exists (q_t q). split; [lra|]. apply orb_true_iff in H4. destruct H4 as [H4|H4]; [apply Rleb_true in H4; lra|].
      apply isEqual_bound in H4. rewrite (Rabs_pos_eq (c - q_t q)), (Rabs_pos_eq c), (Rabs_pos_eq (q_t q)) in H4 by lra.
      rewrite (Rabs_left1 (q_t q - c)) by lra. destruct H4; split; nra. }
  destruct K as (k & K1 & K2 & K3).
  exists (loc (cos az) (sin az) (szOf p) (q_d q + k) Yc Zc).
  assert (S2 := szOf_sqr p). assert (CS := cs1 az).
  split.
  - apply volume_local. destruct (loc_coord (cos az) (sin az) (szOf p) (q_d q + k) Yc Zc CS S2) as (L1 & L2 & L3). rewrite L1, L2.
    split; [lra|]. split; [lra|]. unfold loc. cbn [vz]. rewrite Rabs_mult, (Rabs_pos_eq Zc) by lra.
    replace (Rabs (szOf p)) with 1; [lra|]. unfold szOf. destruct (Rltb (vz p) 0); [rewrite Rabs_left by lra|rewrite Rabs_pos_eq by lra]; lra.
  - unfold vdist.
    assert (D1 : vx (loc (cos az) (sin az) (szOf p) (q_d q + k) Yc Zc) - vx p = (vx tv + c * cos az) + (k - c) * cos az) by (unfold tv, vsub, loc; cbn [vx]; ring).
    assert (D2 : vy (loc (cos az) (sin az) (szOf p) (q_d q + k) Yc Zc) - vy p = (vy tv + c * sin az) + (k - c) * sin az) by (unfold tv, vsub, loc; cbn [vy]; ring).
    assert (D3 : vz (loc (cos az) (sin az) (szOf p) (q_d q + k) Yc Zc) - vz p = vz tv + c * 0) by (unfold tv, vsub, loc; cbn [vz]; ring).
    rewrite D1, D2, D3. apply Rle_trans with (7 / 4 * (2 * (EPS * (2 + c)))).
    + assert (E : 0 < EPS) by (unfold EPS; lra). assert (E2 : 0 <= EPS * (2 + c)) by nra.
      assert (G : forall u, -1 <= u <= 1 -> Rabs ((k - c) * u) <= EPS * (2 + c)).
      { intros u U. rewrite Rabs_mult. apply Rle_trans with (Rabs (k - c) * 1); [|lra]. apply Rmult_le_compat_l; [apply Rabs_pos|]. apply Rabs_le. lra. }
      pose proof (G (cos az) (COS_bound az)) as G1. pose proof (G (sin az) (SIN_bound az)) as G2.
      apply three_bound; [lra| | |lra].
      * pose proof (Rabs_triang (vx tv + c * cos az) ((k - c) * cos az)). lra.
      * pose proof (Rabs_triang (vy tv + c * sin az) ((k - c) * sin az)). lra.
    + unfold EPS in *. lra.
Qed.
Lemma point_found_near : forall type rIn rOut half gap rad h sensitive p id, 0 <= gap ->
  (forall a, In a h -> part_ok (part_of a sensitive)) ->
  isPointInLadder (zp_made type rIn rOut half gap rad h) p sensitive = Some id ->
  within_shell half gap p /\ (0 <= s_layer id)%Z /\ s_side id = (if Rleb 0 (vz p) then 1 else -1)%Z /\
  exists a, nth_error h (Z.to_nat (s_layer id)) = Some a /\ (0 <= s_module id < za_n a)%Z /\
  exists p', in_volume gap (part_of a sensitive) (azimuth a (s_module id)) p' /\ vdist p p' <= 1 / 1000 * (1 + q_t (part_of a sensitive)).
Proof.
  intros type rIn rOut half gap rad h sensitive p id Hg HP H. unfold isPointInLadder in H.
  destruct (made_parts type rIn rOut half gap rad h sensitive) as (E1 & E2 & E3). rewrite E1, E2, E3 in H.
  match type of H with (if ?b then _ else _) = _ => destruct b eqn:B end; [discriminate|].
  split. { unfold within_shell. intros L. destruct (Rltb_spec (1 / 1000) (Rabs half)); [|lra]. cbn [andb] in B. apply orb_false_iff in B. destruct B as [B1 B2].
    apply Rltb_false in B1, B2. lra. }
  apply layer_loop_inv in H. destruct H as (j & l & i & N & L & Hi & M & S & T). rewrite Z.add_0_l in L. rewrite L, Nat2Z.id.
  rewrite nth_error_map in N. destruct (nth_error h j) as [a|] eqn:Ea; [|discriminate]. cbn in N. injection N as <-. cbn [layer_of zl_n] in *.
  split; [lia|]. split; [exact S|]. exists a. split; [reflexivity|]. rewrite M. split; [now apply modl_range|].
  apply hits_near; try assumption; [lia|]. apply HP. eapply nth_error_In; eauto.
Qed.

(** ** points below the origin *)
Lemma below_missed : exists h p a, h = [a] /\ args_ok a /\ part_ok (za_lad a) /\ covers_normal (za_lad a) /\
  in_volume 0 (za_lad a) (azimuth a 0) p /\ within_shell 0 0 p /\ isPointInLadder (zp_made 1 0 0 0 0 0 h) p false = None.
Proof.
  pose (q := mkZP 10 0 1 50 4 1). pose (a := mkZA 1 (3 * (PI / 2)) q q). exists [a], (mkVec 0 (-10.5) 10), a.
  pose proof PI_RGT_0. pose proof PI2_3_2.
  split; [reflexivity|]. split; [unfold args_ok; cbn; split; [lra|lia]|]. split; [unfold part_ok; cbn; lra|].
  split; [unfold covers_normal; cbn; rewrite Rabs_R0; lra|].
  split. { unfold in_volume, along, across, azimuth. cbn [a q za_lad za_phi0 za_n q_d q_t q_off q_w q_len vx vy vz].
    replace (3 * (PI / 2) + 0 * (2 * PI / 1)) with (PI / 2 + PI) by field. rewrite neg_cos, neg_sin, cos_PI2, sin_PI2, (Rabs_pos_eq 10) by lra. lra. }
  split; [unfold within_shell; rewrite Rabs_R0; lra|].
  unfold isPointInLadder. destruct (made_parts 1 0 0 0 0 0 [a] false) as (E1 & E2 & E3). rewrite E1, E2, E3. rewrite Rabs_R0.
  destruct (Rltb_spec (1 / 1000) 0); [lra|]. cbn [andb]. rewrite getPhiPoint_below by (cbn; lra).
  cbn [map layer_loop part_of].
  assert (L : ladder_loop 0 (layer_of a (za_lad a)) (mkVec 0 (-10.5) 10) (Some 0) (Z.to_nat (zl_n (layer_of a (za_lad a)))) 0 = None).
  { change (Z.to_nat (zl_n (layer_of a (za_lad a)))) with 1%nat. cbn [ladder_loop].
    assert (B : isInRange (Some 0) (correctPhiRange (startInnerPhi (layer_of a (za_lad a)) + IZR 0 * deltaPhi (layer_of a (za_lad a)) - EPS))
        (correctPhiRange (endInnerPhi (layer_of a (za_lad a)) + IZR 0 * deltaPhi (layer_of a (za_lad a)) + EPS)) = false); [|rewrite B; reflexivity].
    unfold startInnerPhi, endInnerPhi, layer_of. cbn [a q za_lad za_phi0 za_n q_d q_t q_off q_w q_len zl_phi zl_w zl_off zl_d]. rewrite !Rmult_0_l, !Rplus_0_r, !Rminus_0_r.
    replace (- (4) / 2 / 10) with (- (1 / 5)) by field. replace (4 / 2 / 10) with (1 / 5) by field. rewrite atan_opp.
    assert (T : 0 < atan (1 / 5) < PI / 4). { split; [rewrite <- atan_0|rewrite <- atan_1]; apply atan_increasing; lra. }
    unfold EPS, isInRange, correctPhiRange.
    destruct (Rltb_spec PI (PI / 2 - 3 * (PI / 2) + - atan (1 / 5) - 1 / 10000)); [lra|].
    destruct (Rleb_spec (PI / 2 - 3 * (PI / 2) + - atan (1 / 5) - 1 / 10000) (- PI)); [|lra].
    destruct (Rltb_spec PI (PI / 2 - 3 * (PI / 2) + atan (1 / 5) + 1 / 10000)); [lra|].
    destruct (Rleb_spec (PI / 2 - 3 * (PI / 2) + atan (1 / 5) + 1 / 10000) (- PI)); [lra|].
    apply not_true_is_false. intros Q. rewrite !orb_true_iff, !andb_true_iff, !Rleb_true, !Rltb_true in Q. destruct Q as [[Q|Q]|Q]; lra. }
  rewrite L. repeat (rcase; [reflexivity|]). reflexivity.
Qed.
