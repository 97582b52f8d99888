(** Reading a material map in double arithmetic gives a number (C74). *)
From Coq Require Import ZArith List Bool Reals Lra Lia Psatz.
From Flocq Require Import Core.
From Verif Require Import Base RBase VecModel NumModel NumSpec MatModel MatSpec MatProofs FpModel FpProofs FpMapModel FpMapSpec FpMapProofs FpMapCases FpReadProofs.
Import ListNotations.
Open Scope R_scope.

Definition point_ok (a : axis) (p : R) : Prop := foutside1 a p = false /\ exists k, in_axis a k /\ fgrid_index1 a p = Ok k.

Section cut.
Variable a : axis.
Hypothesis HA : grid_ok a.
Hypothesis HN : (0 < ax_n a)%Z.
Let n := IZR (ax_n a).
Let M := Rabs (ax_min a) + Rabs (ax_max a) + 1.
Let s := (ax_max a - ax_min a) / n.
Let t := M * u53.
Let f := fstep a.

Local Lemma facts : 1 <= n <= 1073741824 /\ 1 <= M /\ 0 < t /\ s * n = ax_max a - ax_min a /\ n * t <= s / 128 /\ t <= s / 128 /\ 0 < s /\
  0 <= ax_max a - ax_min a <= M - 1 /\ 1000 * t <= M /\ s <= M /\ - (4 * t) <= f - s <= 4 * t.
Proof.
  repeat split; try apply (FpMapProofs.n_ge a HA HN); try apply FpMapProofs.M_ge; try apply (FpMapProofs.t_pos a); try apply (FpMapProofs.s_is a HA HN); try apply (FpMapProofs.nt_s a HA HN);
    try apply (FpMapProofs.t_s a HA HN); try apply (FpMapProofs.s_pos a HA HN); try apply (FpMapProofs.range_M a HA); try apply (FpMapProofs.t_M a); try apply (FpMapProofs.s_M a HA HN);
    apply (Rabs_le_inv _ _ (FpMapProofs.step_near a HA HN)).
Qed.

(** the index of a point near the k-th point *)
Lemma index_close : forall k x, in_axis a k -> Rabs (x - (ax_min a + IZR k * f)) <= f / 16 -> Rabs x <= 2 * M -> fgrid_index1 a x = Ok k.
Proof.
  intros k x K H B. destruct facts as (n1 & M1 & t0 & sn & nt & ts & s0 & rM & tM & sM & fs). unfold fgrid_index1. fold f.
  assert (f0 : 0 < f) by lra. destruct (Reqb_spec f 0); [lra|].
  assert (Bm : Rabs (ax_min a) <= M) by (unfold M; pose proof (Rabs_pos (ax_max a)); lra).
  set (e := fsub x (ax_min a)). assert (E : Rabs (e - (x - ax_min a)) <= 4 * t).
  { replace (4 * t) with (4 * M * u53) by (unfold t; ring). apply near_rnd. unfold Rminus. pose proof (Rabs_triang x (- ax_min a)). rewrite Rabs_Ropp in *. lra. }
  apply Rabs_le_inv in E. apply Rabs_le_inv in H. assert (Q : - (f / 8) <= e - IZR k * f <= f / 8) by lra.
  assert (K' : 0 <= IZR k <= n) by (unfold in_axis in K; split; apply IZR_le; lia).
  set (q := e / f). assert (QE : q * f = e) by (unfold q; field; lra). assert (Q1 : IZR k - 1 / 8 <= q <= IZR k + 1 / 8) by (split; nra).
  assert (Q2 : Rabs (fdiv e f - q) <= (n + 3) * u53) by (apply near_rnd; assert (Rabs q <= n + 1) by (apply Rabs_le; lra); lra).
  apply Rabs_le_inv in Q2. assert (nu : (n + 3) * u53 <= 1 / 1000) by (unfold u53; lra).
  assert (Q3 : Rabs (fadd (fdiv e f) (1 / 2) - (fdiv e f + 1 / 2)) <= (n + 3) * u53).
  { apply near_rnd. assert (Rabs (fdiv e f + 1 / 2) <= n + 2) by (apply Rabs_le; lra). lra. }
  apply Rabs_le_inv in Q3. set (r := fadd (fdiv e f) (1 / 2)) in *.
  assert (T : Ztrunc r = k) by (rewrite Ztrunc_floor by lra; apply Zfloor_imp; rewrite plus_IZR; lra).
  unfold to_int. rewrite T. destruct HA as (_ & _ & _ & N & _). unfold in_axis in K. unfold int_okb.
  destruct (Z.leb_spec (-2147483648) k); [|lia]. destruct (Z.leb_spec k 2147483647); [reflexivity|lia].
Qed.
(** any point of the range has an index *)
Lemma index_some : forall x, ax_min a <= x <= ax_max a -> exists k, fgrid_index1 a x = Ok k.
Proof.
  intros x X. destruct facts as (n1 & M1 & t0 & sn & nt & ts & s0 & rM & tM & sM & fs). unfold fgrid_index1. fold f.
  assert (f0 : 0 < f) by lra. destruct (Reqb_spec f 0); [lra|].
  set (e := fsub x (ax_min a)). assert (E : Rabs (e - (x - ax_min a)) <= t) by (apply near_rnd; rewrite Rabs_pos_eq; lra). apply Rabs_le_inv in E.
  set (q := e / f). assert (QE : q * f = e) by (unfold q; field; lra). assert (nf : n * s <= n * (f + 4 * t)) by (apply Rmult_le_compat_l; lra).
  assert (Q1 : -1 <= q <= n + 1) by (split; nra).
  assert (Q2 : Rabs (fdiv e f - q) <= (n + 3) * u53) by (apply near_rnd; assert (Rabs q <= n + 1) by (apply Rabs_le; lra); lra).
  apply Rabs_le_inv in Q2. assert (nu : (n + 3) * u53 <= 1 / 1000) by (unfold u53; lra).
  assert (Q3 : Rabs (fadd (fdiv e f) (1 / 2) - (fdiv e f + 1 / 2)) <= (n + 3) * u53).
  { apply near_rnd. assert (Rabs (fdiv e f + 1 / 2) <= n + 2) by (apply Rabs_le; lra). lra. }
  apply Rabs_le_inv in Q3. set (r := fadd (fdiv e f) (1 / 2)) in *. unfold to_int.
  assert (T : (-2 <= Ztrunc r <= 1073741826)%Z).
  { split.
    - rewrite <- (Ztrunc_IZR (-2)). apply Ztrunc_le. lra.
    - rewrite <- (Ztrunc_IZR 1073741826). apply Ztrunc_le. lra. }
  unfold int_okb. destruct (Z.leb_spec (-2147483648) (Ztrunc r)); [|lia]. destruct (Z.leb_spec (Ztrunc r) 2147483647); [|lia]. cbn. eauto.
Qed.

Hypothesis HB : M <= 2000000001.
Lemma slack : forall p, Rabs p <= 2 * M -> ax_min a - 4 * t <= p <= ax_max a -> foutside1 a p = false.
Proof.
  intros p B H. destruct facts as (n1 & M1 & t0 & sn & nt & ts & s0 & rM & tM & sM & fs). unfold foutside1. rewrite orb_false_iff, !Rltb_false.
  destruct HA as (D1 & D2 & _). assert (T : t <= 2000000001 * u53) by (unfold t; apply Rmult_le_compat_r; [apply Rlt_le, u53_pos|exact HB]).
  assert (F : 99 / 10000000 <= fsmall <= 101 / 10000000).
  { assert (A : Rabs (fsmall - 1 / 100000) <= 2 * u53) by (apply near_rnd; rewrite Rabs_pos_eq; lra). apply Rabs_le_inv in A. unfold u53 in A. lra. }
  split.
  - unfold fadd. rewrite <- (rnd_id _ D1) at 1. apply rnd_le. unfold u53 in T. lra.
  - unfold fsub. rewrite <- (rnd_id _ D2) at 1. apply rnd_le. lra.
Qed.
Lemma used_ok : (2 <= ax_n a)%Z -> forall x, ax_min a <= x <= ax_max a -> fused_points a x <> [] /\ forall p, In p (fused_points a x) -> point_ok a p.
Proof.
  intros N2 x X. destruct facts as (n1 & M1 & t0 & sn & nt & ts & s0 & rM & tM & sM & fs). assert (f0 : 0 < f) by lra.
  assert (n2 : 2 <= n) by (apply IZR_le; lia).
  unfold fused_points. fold f. set (e := fsub x (ax_min a)). assert (E : Rabs (e - (x - ax_min a)) <= t) by (apply near_rnd; rewrite Rabs_pos_eq; lra). apply Rabs_le_inv in E.
  assert (e0 : 0 <= e) by (unfold e, fsub; rewrite <- rnd_0; apply rnd_le; lra).
  set (k := Ztrunc (e / f)). assert (q0 : 0 <= e / f) by (apply Rmult_le_pos; [lra|apply Rlt_le, Rinv_0_lt_compat; lra]).
  assert (K : IZR k <= e / f < IZR k + 1).
  { unfold k. rewrite Ztrunc_floor by exact q0. split; [apply Zfloor_lb|apply Zfloor_ub]. }
  assert (QE : e / f * f = e) by (field; lra).
  assert (K1 : IZR k * f <= e < (IZR k + 1) * f) by (split; rewrite <- QE; [apply Rmult_le_compat_r|apply Rmult_lt_compat_r]; lra).
  assert (k0 : (0 <= k)%Z) by (unfold k; rewrite Ztrunc_floor by exact q0; apply Zfloor_lub; exact q0).
  assert (k0' : 0 <= IZR k) by (apply IZR_le; exact k0).
  assert (kn : (k <= ax_n a)%Z).
  { destruct (Z_le_gt_dec k (ax_n a)) as [C|C]; [exact C|exfalso]. assert (C' : n + 1 <= IZR k) by (unfold n; rewrite <- plus_IZR; apply IZR_le; lia).
    assert ((n + 1) * f <= IZR k * f) by (apply Rmult_le_compat_r; lra). assert ((n + 1) * (s - 4 * t) <= (n + 1) * f) by (apply Rmult_le_compat_l; lra). lra. }
  unfold fmod. fold k. set (r := e - IZR k * f). assert (R0 : 0 <= r < f) by (unfold r; lra).
  pose proof (Rle_abs (ax_max a)) as A1. pose proof (Rle_abs (- ax_min a)) as A2. rewrite Rabs_Ropp in A2. pose proof (Rabs_pos (ax_min a)) as A3. pose proof (Rabs_pos (ax_max a)) as A4.
  assert (xM : Rabs x <= M - 1) by (apply Rabs_le; unfold M; lra). assert (xM' := Rabs_le_inv _ _ xM).
  set (p0 := fsub x r). assert (P0 : Rabs (p0 - (x - r)) <= 3 * t).
  { replace (3 * t) with (3 * M * u53) by (unfold t; ring). apply near_rnd. assert (Rabs (x - r) <= 3 * M - 1) by (apply Rabs_le; lra). lra. }
  apply Rabs_le_inv in P0. assert (P0' : Rabs (p0 - (ax_min a + IZR k * f)) <= 4 * t) by (apply Rabs_le; unfold r in *; lra). assert (P0'' := Rabs_le_inv _ _ P0').
  assert (Top : p0 <= ax_max a).
  { destruct HA as (_ & D2 & _). unfold p0, fsub. rewrite <- (rnd_id _ D2). apply rnd_le. lra. }
  assert (kf : 0 <= IZR k * f) by (apply Rmult_le_pos; lra).
  assert (Low : ax_min a - 4 * t <= p0) by lra.
  assert (B0 : Rabs p0 <= 2 * M) by (apply Rabs_le; unfold M in *; lra).
  assert (OK0 : point_ok a p0).
  { split; [apply slack; auto|]. exists k. split; [unfold in_axis; lia|]. apply index_close; [unfold in_axis; lia| |exact B0]. fold f. lra. }
  set (p1 := fadd p0 f). assert (P1 : Rabs (p1 - (p0 + f)) <= 3 * t).
  { replace (3 * t) with (3 * M * u53) by (unfold t; ring). apply near_rnd. assert (Rabs (p0 + f) <= 3 * M - 1) by (apply Rabs_le; unfold M in *; lra). lra. }
  apply Rabs_le_inv in P1.
  assert (OK1 : in_range1 a p1 = true -> point_ok a p1).
  { intros I. unfold in_range1 in I. rewrite andb_true_iff, !Rleb_true in I.
    assert (k1 : (k + 1 <= ax_n a)%Z).
    { destruct (Z_le_gt_dec (k + 1) (ax_n a)) as [C|C]; [exact C|exfalso]. assert (C' : n <= IZR k) by (apply IZR_le; lia).
      assert (n * (s - 4 * t) <= IZR k * f) by (apply Rmult_le_compat; lra). lra. }
    assert (B1 : Rabs p1 <= 2 * M) by (apply Rabs_le; unfold M in *; lra).
    split; [apply slack; [exact B1|lra]|]. exists (k + 1)%Z. split; [unfold in_axis; lia|]. apply index_close; [unfold in_axis; lia| |exact B1]. fold f. rewrite plus_IZR. apply Rabs_le. lra. }
  destruct (in_range1 a p0) eqn:I0.
  - destruct (in_range1 a p1) eqn:I1; cbn [Nat.add firstn]; (split; [discriminate|]); intros p HP; cbn [In] in HP.
    + destruct HP as [<-|[<-|[]]]; auto.
    + destruct HP as [<-|[]]; auto.
  - assert (I1 : in_range1 a p1 = true).
    { unfold in_range1 in I0 |- *. rewrite andb_false_iff, !Rleb_false in I0. rewrite andb_true_iff, !Rleb_true.
      assert (L0 : p0 < ax_min a) by lra. assert (kz : k = 0%Z).
      { destruct (Z.eq_dec k 0) as [|C]; [assumption|exfalso]. assert (1 <= IZR k) by (apply IZR_le; lia). assert (1 * f <= IZR k * f) by (apply Rmult_le_compat_r; lra). lra. }
      rewrite kz, Rmult_0_l in P0''. assert (2 * s <= n * s) by (apply Rmult_le_compat_r; lra). split; lra. }
    rewrite I1. cbn [Nat.add firstn]. split; [discriminate|]. intros p [<-|[]]. exact OK0.
Qed.
End cut.

(** ranges of which every point can be read *)
Lemma axis_used : forall a, grid_ok a -> Rabs (ax_min a) <= 1000000000 -> Rabs (ax_max a) <= 1000000000 -> ((2 <= ax_n a)%Z \/ ax_n a = 0%Z /\ ax_min a = ax_max a) ->
  forall x, ax_min a <= x <= ax_max a -> fused_points a x <> [] /\ (forall p, In p (fused_points a x) -> point_ok a p) /\ exists k, fgrid_index1 a x = Ok k.
Proof.
  intros a HA B1 B2 [N|[N E]] x X.
  - destruct (used_ok a HA ltac:(lia) ltac:(lra) N x X) as [U1 U2]. split; [exact U1|]. split; [exact U2|]. apply index_some; [exact HA|lia|exact X].
  - assert (x = ax_min a) by lra. subst x. assert (In0 : in_axis a 0) by (unfold in_axis; lia).
    assert (Nd : node a 0 = ax_min a) by (unfold node; destruct (Z.eqb_spec (ax_n a) 0); lra).
    destruct (exact_facts a 0 (or_intror (conj HA N)) In0) as (F1 & F2 & _). rewrite Nd in F1, F2.
    assert (St : fstep a = 1) by (unfold fstep; destruct (Z.eqb_spec (ax_n a) 0); [reflexivity|lia]).
    assert (FP : fused_points a (ax_min a) = [ax_min a]).
    { unfold fused_points. rewrite St. unfold fsub at 1 2 3 4 5 6. replace (ax_min a - ax_min a) with 0 by ring. rewrite rnd_0. unfold fmod. replace (0 / 1) with 0 by field. rewrite Ztrunc_IZR.
      replace (0 - 0 * 1) with 0 by ring. rewrite Rminus_0_r. destruct HA as (D1 & _). rewrite !(rnd_id _ D1).
      assert (I0 : in_range1 a (ax_min a) = true) by (unfold in_range1; rewrite andb_true_iff, !Rleb_true; lra). rewrite I0.
      assert (I1 : in_range1 a (fadd (ax_min a) 1) = false).
      { unfold in_range1. rewrite andb_false_iff, !Rleb_false. right. unfold fadd. assert (A : Rabs (to_double (ax_min a + 1) - (ax_min a + 1)) <= 1000000003 * u53).
        { apply near_rnd. pose proof (Rabs_triang (ax_min a) 1). rewrite Rabs_R1 in *. lra. }
        apply Rabs_le_inv in A. unfold u53 in A. lra. }
      rewrite I1. reflexivity. }
    rewrite FP. split; [discriminate|]. split; [|eauto]. intros p [<-|[]]. split; [exact F2|]. exists 0%Z. auto.
Qed.

Lemma interp_defined : forall m x y z,
  (forall px py pz p, fcalculateGridIndex m px py pz = Ok p -> fdist x y z px py pz <= bpow radix2 105) ->
  forall pts, (forall p, In p pts -> match p with (px, py, pz) => point_ok (mm_x m) px /\ point_ok (mm_y m) py /\ point_ok (mm_z m) pz end) ->
  forall sr si sw, 0 <= sw -> (0 < sw \/ pts <> []) -> exists r, finterp m x y z pts (sr, si, sw) = Ok r /\ 0 < snd r.
Proof.
  intros m x y z D pts. induction pts as [|[[px py] pz] pts IH]; intros P sr si sw W NE; cbn [finterp].
  - exists (sr, si, sw). split; [reflexivity|]. cbn. destruct NE as [|[]]; [assumption|reflexivity].
  - destruct (P _ (or_introl eq_refl)) as ((X1 & i & X2 & X3) & (Y1 & j & Y2 & Y3) & (Z1 & k & Z2 & Z3)).
    assert (G : fcalculateGridIndex m px py pz = Ok (i, j, k)) by (unfold fcalculateGridIndex; rewrite X1, Y1, Z1, X3, Y3, Z3; reflexivity).
    rewrite G. cbn [rbind]. unfold mm_get. rewrite (proj2 (inb_true m i j k)) by auto. cbn [rbind]. pose proof (D _ _ _ _ G) as DT. set (d := fdist x y z px py pz) in *.
    destruct (Rltb_spec (Rabs d) fsmall) as [C|C]; [eexists; split; [reflexivity|cbn; lra]|].
    assert (d0 : 0 < d).
    { pose proof (fdist_pos x y z px py pz) as DP. fold d in DP. rewrite Rabs_pos_eq in C by exact DP. pose proof small_size. lra. }
    apply IH; [intros p HP; apply P; right; exact HP| |left].
    + unfold fadd, fdiv. rewrite <- rnd_0. apply rnd_le. assert (0 <= to_double (1 / d)); [|lra]. rewrite <- rnd_0. apply rnd_le. apply Rmult_le_pos; [lra|apply Rlt_le, Rinv_0_lt_compat; exact d0].
    + assert (Q : bpow radix2 (-105) <= fdiv 1 d).
      { unfold fdiv. rewrite <- (double_bpow (-105)) by lia. apply rnd_le. change (-105)%Z with (- (105))%Z. rewrite bpow_opp. unfold Rdiv. rewrite Rmult_1_l. apply Rinv_le; assumption. }
      apply Rlt_le_trans with (bpow radix2 (-105)); [apply bpow_gt_0|]. unfold fadd. rewrite <- (double_bpow (-105)) by lia. apply rnd_le. lra.
Qed.

Lemma fread_defined : forall m x y z,
  (forall a, In a [mm_x m; mm_y m; mm_z m] -> grid_ok a /\ Rabs (ax_min a) <= 1000000000 /\ Rabs (ax_max a) <= 1000000000 /\ ((2 <= ax_n a)%Z \/ ax_n a = 0%Z /\ ax_min a = ax_max a)) ->
  is_double x -> is_double y -> is_double z -> ax_min (mm_x m) <= x <= ax_max (mm_x m) -> ax_min (mm_y m) <= y <= ax_max (mm_y m) -> ax_min (mm_z m) <= z <= ax_max (mm_z m) ->
  exists r r', fgetRadiationLength m x y z = Ok r /\ fgetInteractionLength m x y z = Ok r'.
Proof.
  intros m x y z H Dx Dy Dz Rx Ry Rz.
  destruct (H (mm_x m) ltac:(cbn; auto)) as (GX & BX & BX' & NX). destruct (H (mm_y m) ltac:(cbn; auto)) as (GY & BY & BY' & NY). destruct (H (mm_z m) ltac:(cbn; auto)) as (GZ & BZ & BZ' & NZ).
  destruct (axis_used _ GX BX BX' NX x Rx) as (X1 & X2 & ix & X3). destruct (axis_used _ GY BY BY' NY y Ry) as (Y1 & Y2 & iy & Y3). destruct (axis_used _ GZ BZ BZ' NZ z Rz) as (Z1 & Z2 & iz & Z3).
  assert (G : fcalculateGridIndex m x y z = Ok (ix, iy, iz)).
  { unfold fcalculateGridIndex. rewrite !inside_ok by assumption. rewrite X3, Y3, Z3. reflexivity. }
  assert (Mo : forall v, Rabs v <= 1000000000 -> moderate v).
  { intros v V. unfold moderate. rewrite (two_power 100). pose proof (bpow_le radix2 30 100 ltac:(lia)). change (bpow radix2 30) with 1073741824 in *. lra. }
  assert (Mi : forall a v, Rabs (ax_min a) <= 1000000000 -> Rabs (ax_max a) <= 1000000000 -> ax_min a <= v <= ax_max a -> moderate v).
  { intros a v V1 V2 V. apply Mo. apply Rabs_le_inv in V1. apply Rabs_le_inv in V2. apply Rabs_le. lra. }
  destruct (interp_defined m x y z) with (pts := fall_points m x y z) (sr := 0) (si := 0) (sw := 0) as ([[sr si] sw] & F & W).
  - apply fdist_top; [|eapply Mi; [| |exact Rx]; assumption|eapply Mi; [| |exact Ry]; assumption|eapply Mi; [| |exact Rz]; assumption].
    intros a Ha. destruct (H a Ha) as (_ & A1 & A2 & _). split; apply Mo; assumption.
  - intros p HP. unfold fall_points in HP. apply in_flat_map in HP. destruct HP as (px & HX & HP). apply in_flat_map in HP. destruct HP as (py & HY & HP). apply in_map_iff in HP. destruct HP as (pz & <- & HZ). auto.
  - lra.
  - right. intros E. unfold fall_points in E. destruct (fused_points (mm_x m) x) as [|px tx]; [contradiction|]. cbn [flat_map] in E. apply app_eq_nil in E. destruct E as [E _].
    destruct (fused_points (mm_y m) y) as [|py ty]; [contradiction|]. cbn [flat_map] in E. apply app_eq_nil in E. destruct E as [E _]. apply map_eq_nil in E. contradiction.
  - cbn in W. unfold fgetRadiationLength, fgetInteractionLength. rewrite G. cbn [rbind]. unfold finterpolateOnGrid. rewrite F. cbn [rbind]. destruct (Reqb_spec sw 0); [lra|]. cbn [rmap]. eauto.
Qed.

(** ** two ranges in one part *)
Lemma single_zero : fused_points (mkAx 0 0 0) 0 = [0] /\ foutside1 (mkAx 0 0 0) 0 = false /\ fgrid_index1 (mkAx 0 0 0) 0 = Ok 0%Z.
Proof.
  pose proof one_point_ok as G.
  assert (I : in_axis (mkAx 0 0 0) 0) by (unfold in_axis; cbn; lia).
  destruct (exact_facts _ 0 (or_intror (conj G eq_refl)) I) as (F1 & F2 & _). unfold node, one_point in F1, F2. cbn [ax_n ax_min ax_max Z.eqb] in F1, F2. rewrite Rplus_0_r in F1, F2.
  split; [|split; assumption].
  unfold fused_points, fstep. cbn [ax_n ax_min ax_max Z.eqb]. unfold fsub, fadd, fmod. rewrite Rminus_0_r, rnd_0. replace (0 / 1) with 0 by field. rewrite Ztrunc_IZR. replace (0 - (0 - 0 * 1)) with 0 by ring. rewrite rnd_0, Rplus_0_l.
  rewrite (rnd_id 1) by (apply (is_double_IZR 1 0); [unfold powerRZ; lra|reflexivity|lia]).
  unfold in_range1. cbn [ax_min ax_max]. rewrite (proj2 (Rleb_true 0 0)) by lra. rewrite (proj2 (Rleb_false 1 0)) by lra. rewrite andb_false_r. reflexivity.
Qed.
Lemma trunc_below : forall e f, 0 <= e -> 0 < f -> e < f -> fmod e f = e.
Proof.
  intros e f E F L. unfold fmod. assert (Q : 0 <= e / f) by (apply Rmult_le_pos; [lra|apply Rlt_le, Rinv_0_lt_compat; lra]).
  assert (T : Ztrunc (e / f) = 0%Z); [|rewrite T; ring]. rewrite Ztrunc_floor by exact Q. apply Zfloor_imp. split; [exact Q|]. cbn [Z.add]. apply Rmult_lt_reg_r with f; [exact F|]. replace (e / f * f) with e by (field; lra). lra.
Qed.

Definition wide : axis := mkAx (-12) (to_double (549 / 10)) 1.
Lemma wide_end : to_double (549 / 10) = 7726488110707507 / 140737488355328.
Proof. apply (rnd_is 7726488110707507 140737488355328 47); [lia|lia|reflexivity|near]. Qed.
Lemma wide_x : to_double (1013 / 100) = 5702683028157891 / 562949953421312.
Proof. apply (rnd_is 5702683028157891 562949953421312 49); [lia|lia|reflexivity|near]. Qed.
Lemma wide_ok : grid_ok wide.
Proof.
  unfold grid_ok, wide. cbn [ax_min ax_max ax_n]. assert (D : is_double (to_double (549 / 10))) by apply rnd_double. split; [apply (is_double_IZR (-12) 0); [unfold powerRZ; lra|reflexivity|lia]|].
  split; [exact D|]. rewrite wide_end. split; [lra|]. split; [lia|]. split; [|lia]. intros _. rewrite (Rabs_left (-12)) by lra. rewrite Rabs_pos_eq; lra.
Qed.
Lemma wide_empty : fused_points wide (to_double (1013 / 100)) = [].
Proof.
  unfold fused_points, fstep, wide. cbn [ax_n ax_min ax_max Z.eqb]. rewrite wide_end, wide_x.
  replace (fsub (7726488110707507 / 140737488355328) (-12)) with (4707668985485722 / 70368744177664) by (symmetry; apply (rnd_is 4707668985485722 70368744177664 46); [lia|lia|reflexivity|near]).
  replace (fdiv (4707668985485722 / 70368744177664) 1) with (4707668985485722 / 70368744177664) by (symmetry; apply (rnd_is 4707668985485722 70368744177664 46); [lia|lia|reflexivity|near]).
  replace (fsub (5702683028157891 / 562949953421312) (-12)) with (6229041234606818 / 281474976710656) by (symmetry; apply (rnd_is 6229041234606818 281474976710656 48); [lia|lia|reflexivity|near]).
  rewrite trunc_below by lra.
  replace (fsub (5702683028157891 / 562949953421312) (6229041234606818 / 281474976710656)) with (- (6755399441055745 / 562949953421312)).
  2:{ unfold fsub. rewrite <- (Ropp_involutive (5702683028157891 / 562949953421312 - _)), rnd_opp. f_equal. symmetry. apply (rnd_is 6755399441055745 562949953421312 49); [lia|lia|reflexivity|near]. }
  replace (fadd (- (6755399441055745 / 562949953421312)) (4707668985485722 / 70368744177664)) with (7726488110707508 / 140737488355328) by (symmetry; apply (rnd_is 7726488110707508 140737488355328 47); [lia|lia|reflexivity|near]).
  unfold in_range1. cbn [ax_min ax_max]. rewrite (proj2 (Rleb_false (-12) _)) by lra. rewrite (proj2 (Rleb_false (7726488110707508 / 140737488355328) _)) by lra. rewrite andb_false_r. reflexivity.
Qed.
Lemma read_nan : forall m, mm_x m = mkAx (-12) (to_double (549 / 10)) 1 -> mm_y m = mkAx 0 0 0 -> mm_z m = mkAx 0 0 0 ->
  fgetRadiationLength m (to_double (1013 / 100)) 0 0 = UB /\ fgetInteractionLength m (to_double (1013 / 100)) 0 0 = UB.
Proof.
  intros m EX EY EZ. fold wide in EX. destruct single_zero as (S1 & S2 & S3).
  assert (X : ax_min wide <= to_double (1013 / 100) <= ax_max wide) by (unfold wide; cbn [ax_min ax_max]; rewrite wide_end, wide_x; lra).
  destruct (index_some wide wide_ok ltac:(reflexivity) _ X) as [k K].
  assert (I : finterpolateOnGrid m (to_double (1013 / 100)) 0 0 = UB).
  { unfold finterpolateOnGrid, fall_points. rewrite EX, wide_empty. cbn [flat_map finterp rbind]. destruct (Reqb_spec 0 0); [reflexivity|lra]. }
  unfold fgetRadiationLength, fgetInteractionLength, fcalculateGridIndex. rewrite EX, EY, EZ, S2, S3, K, (inside_ok wide _ (rnd_double _) X). cbn [orb rbind]. rewrite I. split; reflexivity.
Qed.

Definition five : axis := mkAx (-2) 3 1.
Lemma five_ok : grid_ok five.
Proof.
  unfold grid_ok, five. cbn [ax_min ax_max ax_n]. split; [apply (is_double_IZR (-2) 0); [unfold powerRZ; lra|reflexivity|lia]|]. split; [apply (is_double_IZR 3 0); [unfold powerRZ; lra|reflexivity|lia]|].
  split; [lra|]. split; [lia|]. split; [|lia]. intros _. rewrite (Rabs_left (-2)) by lra. rewrite Rabs_pos_eq; lra.
Qed.
Lemma five_x : to_double (2999 / 1000) = 6753147641242059 / 2251799813685248.
Proof. apply (rnd_is 6753147641242059 2251799813685248 51); [lia|lia|reflexivity|near]. Qed.
Lemma five_step : fstep five = 5.
Proof.
  unfold fstep, five. cbn [ax_n ax_min ax_max Z.eqb]. unfold fsub, fdiv. replace (3 - -2) with 5 by ring. assert (D : is_double 5) by (apply (is_double_IZR 5 0); [unfold powerRZ; lra|reflexivity|lia]).
  rewrite (rnd_id 5 D). unfold Rdiv. rewrite Rinv_1, Rmult_1_r. apply (rnd_id 5 D).
Qed.
Lemma five_points : fused_points five (to_double (2999 / 1000)) = [- (4503599627370497 / 2251799813685248)].
Proof.
  unfold fused_points. rewrite five_step, five_x. unfold five. cbn [ax_n ax_min ax_max].
  replace (fsub (6753147641242059 / 2251799813685248) (-2)) with (5628373634306278 / 1125899906842624) by (symmetry; apply (rnd_is 5628373634306278 1125899906842624 50); [lia|lia|reflexivity|near]).
  rewrite trunc_below by lra.
  replace (fsub (6753147641242059 / 2251799813685248) (5628373634306278 / 1125899906842624)) with (- (4503599627370497 / 2251799813685248)).
  2:{ unfold fsub. rewrite <- (Ropp_involutive (6753147641242059 / 2251799813685248 - _)), rnd_opp. f_equal. symmetry. apply (rnd_is 4503599627370497 2251799813685248 51); [lia|lia|reflexivity|near]. }
  replace (fadd (- (4503599627370497 / 2251799813685248)) 5) with (6755399441055743 / 2251799813685248) by (symmetry; apply (rnd_is 6755399441055743 2251799813685248 51); [lia|lia|reflexivity|near]).
  unfold in_range1. cbn [ax_min ax_max]. rewrite (proj2 (Rleb_false (-2) _)) by lra. rewrite (proj2 (Rleb_true (-2) (6755399441055743 / 2251799813685248))) by lra. rewrite (proj2 (Rleb_true (6755399441055743 / 2251799813685248) 3)) by lra. reflexivity.
Qed.
Lemma five_point : point_ok five (- (4503599627370497 / 2251799813685248)) /\ fgrid_index1 five (- (4503599627370497 / 2251799813685248)) = Ok 0%Z.
Proof.
  assert (A : Rabs (- (4503599627370497 / 2251799813685248)) = 4503599627370497 / 2251799813685248) by (rewrite Rabs_Ropp; apply Rabs_pos_eq; lra).
  assert (E2 : Rabs (-2) = 2) by (rewrite Rabs_left; lra). assert (E3 : Rabs 3 = 3) by (apply Rabs_pos_eq; lra).
  assert (I : fgrid_index1 five (- (4503599627370497 / 2251799813685248)) = Ok 0%Z).
  { apply (index_close five five_ok ltac:(reflexivity)); [unfold in_axis, five; cbn; lia| |]; rewrite ?five_step; unfold five; cbn [ax_min ax_max]; rewrite ?A, ?E2, ?E3; [apply Rabs_le; lra|lra]. }
  split; [|exact I]. split; [|exists 0%Z; split; [unfold in_axis, five; cbn; lia|exact I]].
  apply (slack five five_ok ltac:(reflexivity)); unfold five; cbn [ax_min ax_max]; rewrite ?A, ?E2, ?E3; unfold u53; lra.
Qed.
Lemma read_far : forall m, mm_x m = mkAx (-2) 3 1 -> mm_y m = mkAx 0 0 0 -> mm_z m = mkAx 0 0 0 ->
  mm_val m 0 0 0 = (0, 0) -> fgetRadiationLength m (to_double (2999 / 1000)) 0 0 = Ok 0 /\ fgetInteractionLength m (to_double (2999 / 1000)) 0 0 = Ok 0.
Proof.
  intros m EX EY EZ V. fold five in EX. destruct single_zero as (S1 & S2 & S3). destruct five_point as [P1 P2].
  assert (X : ax_min five <= to_double (2999 / 1000) <= ax_max five) by (unfold five; cbn [ax_min ax_max]; rewrite five_x; lra).
  destruct (index_some five five_ok ltac:(reflexivity) _ X) as [k K].
  set (x := to_double (2999 / 1000)) in *. set (p := - (4503599627370497 / 2251799813685248)) in *.
  assert (FA : fall_points m x 0 0 = [(p, 0, 0)]).
  { unfold fall_points. rewrite EX, EY, EZ, S1. unfold x. rewrite five_points. reflexivity. }
  assert (G : fcalculateGridIndex m p 0 0 = Ok (0%Z, 0%Z, 0%Z)) by (unfold fcalculateGridIndex; rewrite EX, EY, EZ, S2, S3, P2, (proj1 P1); reflexivity).
  assert (In0 : forall a, a = five \/ a = mkAx 0 0 0 -> in_axis a 0) by (intros a [->| ->]; unfold in_axis, five; cbn; lia).
  assert (Mo : forall v, Rabs v <= 3 -> moderate v).
  { intros v W. unfold moderate. rewrite (two_power 100). pose proof (bpow_le radix2 2 100 ltac:(lia)). change (bpow radix2 2) with 4 in *. lra. }
  assert (PZ : point_ok (mkAx 0 0 0) 0) by (split; [exact S2|exists 0%Z; split; [apply In0; auto|exact S3]]).
  assert (I : finterpolateOnGrid m x 0 0 = Ok (0, 0)).
  { destruct (interp_defined m x 0 0) with (pts := [(p, 0, 0)]) (sr := 0) (si := 0) (sw := 0) as ([[sr si] sw] & F & W).
    - apply fdist_top; try (apply Mo; rewrite Rabs_R0; lra).
      + intros a [<-|[<-|[<-|[]]]]; rewrite ?EX, ?EY, ?EZ; unfold five; cbn [ax_min ax_max]; split; apply Mo; rewrite ?Rabs_R0; try lra; apply Rabs_le; lra.
      + apply Mo. unfold five in X. cbn [ax_min ax_max] in X. apply Rabs_le. lra.
    - intros q [<-|[]]. rewrite EX, EY, EZ. auto.
    - lra.
    - right. discriminate.
    - unfold finterpolateOnGrid. rewrite FA, F. cbn [rbind snd] in *. destruct (Reqb_spec sw 0); [lra|].
      cbn [finterp] in F. rewrite G in F. cbn [rbind] in F. unfold mm_get in F. rewrite (proj2 (inb_true m 0 0 0)) in F by (rewrite EX, EY, EZ; auto). cbn [rbind] in F. rewrite V in F. cbn [fst snd] in F.
      assert (Z0 : forall y, fdiv 0 y = 0) by (intros; unfold fdiv, Rdiv; rewrite Rmult_0_l; apply rnd_0).
      assert (Z1 : fadd 0 0 = 0) by (unfold fadd; rewrite Rplus_0_r; apply rnd_0).
      rewrite !Z0, Z1 in F. destruct (Rltb (Rabs (fdist x 0 0 p 0 0)) fsmall); injection F as <- <- _; rewrite !Z0; reflexivity. }
  unfold fgetRadiationLength, fgetInteractionLength, fcalculateGridIndex. rewrite EX, EY, EZ, S2, S3, K, (inside_ok five x (rnd_double _) X). cbn [orb rbind]. rewrite I. split; reflexivity.
Qed.
