From Coq Require Import ZArith List Bool Reals Lra Lia Psatz.
From Flocq Require Import Core.
From Verif Require Import Base RBase VecModel NumModel NumSpec MatModel MatSpec MatProofs FpModel FpProofs FpMapModel FpMapSpec FpMapProofs.
Import ListNotations.
Open Scope R_scope.

(** ** two grids whose last plane is missing *)
Lemma near_even : forall r m, Z.even m = true -> Rabs (r - IZR m) <= 1 / 2 -> ZnearestE r = m.
Proof.
  intros r m Em H. destruct (Rle_lt_or_eq_dec _ _ H) as [L|L]; [apply Znearest_imp; lra|]. unfold Rabs in L. destruct (Rcase_abs (r - IZR m)).
  - assert (F : Zfloor r = (m - 1)%Z) by (apply Zfloor_imp; rewrite minus_IZR, plus_IZR, minus_IZR; lra).
    assert (C : Zceil r = m) by (apply Zceil_imp; rewrite minus_IZR; lra).
    unfold Znearest. rewrite F, minus_IZR. rewrite Rcompare_Eq by lra. replace (Z.even (m - 1)) with false by (rewrite Z.even_sub, Em; reflexivity). exact C.
  - assert (F : Zfloor r = m) by (apply Zfloor_imp; rewrite plus_IZR; lra).
    unfold Znearest. rewrite F. rewrite Rcompare_Eq by lra. rewrite Em. reflexivity.
Qed.
Lemma rnd_is : forall m P j x, (4503599627370496 < m < 9007199254740992)%Z -> (0 <= j <= 1000)%Z -> P = (2 ^ j)%Z ->
  (Rabs (x * IZR P - IZR m) < 1 / 2 \/ Z.even m = true /\ Rabs (x * IZR P - IZR m) <= 1 / 2) -> to_double x = IZR m / IZR P.
Proof.
  intros m P j x Hm Hj -> H. assert (B : IZR (2 ^ j) = bpow radix2 j) by (rewrite <- (IZR_Zpower radix2) by lia; reflexivity). rewrite B in *.
  pose proof (bpow_gt_0 radix2 j) as J0. assert (Ji : bpow radix2 (- j) = / bpow radix2 j) by apply bpow_opp.
  assert (T : ZnearestE (x * bpow radix2 j) = m) by (destruct H as [H|[H1 H]]; [apply Znearest_imp; lra|apply near_even; assumption]).
  assert (H' : Rabs (x * bpow radix2 j - IZR m) <= 1 / 2) by (destruct H as [H|[_ H]]; lra). apply Rabs_le_inv in H'. assert (M1 : IZR 4503599627370497 <= IZR m <= IZR 9007199254740991) by (split; apply IZR_le; lia).
  assert (X : x = x * bpow radix2 j * bpow radix2 (- j)) by (rewrite Ji; field; lra).
  assert (J1 : 0 < bpow radix2 (- j)) by apply bpow_gt_0.
  assert (C : cexp radix2 (FLT_exp (-1074) 53) x = (- j)%Z).
  { unfold cexp, FLT_exp. rewrite (mag_unique radix2 x (53 - j)); [lia|].
    replace (53 - j - 1)%Z with (52 + - j)%Z by ring. replace (53 - j)%Z with (53 + - j)%Z by ring. rewrite !bpow_plus.
    replace (bpow radix2 52) with 4503599627370496 by (cbn; lra). replace (bpow radix2 53) with 9007199254740992 by (cbn; lra).
    assert (4503599627370496 * bpow radix2 (- j) <= x < 9007199254740992 * bpow radix2 (- j)) by (rewrite X; split; [apply Rmult_le_compat_r|apply Rmult_lt_compat_r]; lra).
    rewrite Rabs_pos_eq; [lra|]. assert (0 <= 4503599627370496 * bpow radix2 (- j)) by lra. lra. }
  unfold to_double, round, scaled_mantissa. rewrite C. rewrite Z.opp_involutive. rewrite T.
  unfold F2R. cbn [Fnum Fexp]. rewrite Ji. reflexivity.
Qed.
Ltac near := first [left; apply Rabs_def1; lra|right; split; [reflexivity|apply Rabs_le; lra]].
Definition ninths : axis := mkAx 0 100 9.
Lemma ninths_step : fstep ninths = 6254999482459022 / 562949953421312.
Proof.
  unfold fstep, ninths. cbn [ax_n ax_max ax_min Z.eqb]. unfold fsub. rewrite Rminus_0_r, (rnd_id 100) by (apply (is_double_IZR 100 0); [unfold powerRZ; lra|reflexivity|lia]).
  apply (rnd_is 6254999482459022 562949953421312 49); [lia|lia|reflexivity|near].
Qed.
Lemma ninths_visited : exists xs, visited 10 0 100 (fstep ninths) = Some xs /\ length xs = 9%nat.
Proof.
  rewrite ninths_step. cbn [visited].
  destruct (Rleb_spec 0 100); [|lra].
  replace (fadd 0 (6254999482459022 / 562949953421312)) with (6254999482459022 / 562949953421312) by (symmetry; apply (rnd_is 6254999482459022 562949953421312 49); [lia|lia|reflexivity|near]).
  destruct (Rleb_spec (6254999482459022 / 562949953421312) 100); [|lra].
  replace (fadd (6254999482459022 / 562949953421312) (6254999482459022 / 562949953421312)) with (6254999482459022 / 281474976710656) by (symmetry; apply (rnd_is 6254999482459022 281474976710656 48); [lia|lia|reflexivity|near]).
  destruct (Rleb_spec (6254999482459022 / 281474976710656) 100); [|lra].
  replace (fadd (6254999482459022 / 281474976710656) (6254999482459022 / 562949953421312)) with (4691249611844266 / 140737488355328) by (symmetry; apply (rnd_is 4691249611844266 140737488355328 47); [lia|lia|reflexivity|near]).
  destruct (Rleb_spec (4691249611844266 / 140737488355328) 100); [|lra].
  replace (fadd (4691249611844266 / 140737488355328) (6254999482459022 / 562949953421312)) with (6254999482459022 / 140737488355328) by (symmetry; apply (rnd_is 6254999482459022 140737488355328 47); [lia|lia|reflexivity|near]).
  destruct (Rleb_spec (6254999482459022 / 140737488355328) 100); [|lra].
  replace (fadd (6254999482459022 / 140737488355328) (6254999482459022 / 562949953421312)) with (7818749353073778 / 140737488355328) by (symmetry; apply (rnd_is 7818749353073778 140737488355328 47); [lia|lia|reflexivity|near]).
  destruct (Rleb_spec (7818749353073778 / 140737488355328) 100); [|lra].
  replace (fadd (7818749353073778 / 140737488355328) (6254999482459022 / 562949953421312)) with (4691249611844267 / 70368744177664) by (symmetry; apply (rnd_is 4691249611844267 70368744177664 46); [lia|lia|reflexivity|near]).
  destruct (Rleb_spec (4691249611844267 / 70368744177664) 100); [|lra].
  replace (fadd (4691249611844267 / 70368744177664) (6254999482459022 / 562949953421312)) with (5473124547151645 / 70368744177664) by (symmetry; apply (rnd_is 5473124547151645 70368744177664 46); [lia|lia|reflexivity|near]).
  destruct (Rleb_spec (5473124547151645 / 70368744177664) 100); [|lra].
  replace (fadd (5473124547151645 / 70368744177664) (6254999482459022 / 562949953421312)) with (6254999482459023 / 70368744177664) by (symmetry; apply (rnd_is 6254999482459023 70368744177664 46); [lia|lia|reflexivity|near]).
  destruct (Rleb_spec (6254999482459023 / 70368744177664) 100); [|lra].
  replace (fadd (6254999482459023 / 70368744177664) (6254999482459022 / 562949953421312)) with (7036874417766401 / 70368744177664) by (symmetry; apply (rnd_is 7036874417766401 70368744177664 46); [lia|lia|reflexivity|near]).
  destruct (Rleb_spec (7036874417766401 / 70368744177664) 100); [lra|].
  eexists. split; reflexivity.
Qed.
Definition one_point : axis := mkAx 0 0 0.
Lemma double_100 : is_double 100.
Proof. apply (is_double_IZR 100 0); [unfold powerRZ; lra|reflexivity|lia]. Qed.
Lemma ninths_ok : grid_ok ninths.
Proof.
  unfold grid_ok, ninths. cbn [ax_n ax_min ax_max]. split; [apply double_0|]. split; [apply double_100|]. split; [lra|]. split; [lia|].
  split; [intros _; rewrite Rabs_R0, Rabs_pos_eq by lra; lra|discriminate].
Qed.
Lemma one_point_ok : grid_ok one_point.
Proof.
  unfold grid_ok, one_point. cbn [ax_n ax_min ax_max]. split; [apply double_0|]. split; [apply double_0|]. split; [lra|]. split; [lia|].
  split; [lia|]. intros _. rewrite Rabs_R0. lra.
Qed.
Lemma small_size : 1 / 1000000 < fsmall < 1 / 10000.
Proof. unfold fsmall. pose proof (rnd_rel (1 / 100000)) as H. rewrite (Rabs_pos_eq (1 / 100000)) in H by lra. apply Rabs_le_inv in H. lra. Qed.
Lemma trunc_0 : Ztrunc 0 = 0%Z. Proof. apply (Ztrunc_IZR 0). Qed.
Lemma one_point_used : fused_points one_point 0 = [0].
Proof.
  unfold fused_points. cbn [ax_min]. unfold fstep, one_point. cbn [ax_n ax_max ax_min Z.eqb]. unfold fmod, fsub, fadd.
  replace (0 - 0) with 0 by ring. rewrite rnd_0. replace (0 / 1) with 0 by lra. rewrite trunc_0. replace (0 - (0 - 0 * 1)) with 0 by ring. rewrite rnd_0.
  rewrite Rplus_0_l, (rnd_id 1) by (apply (is_double_IZR 1 0); [unfold powerRZ; lra|reflexivity|lia]). unfold in_range1. cbn [ax_min ax_max].
  destruct (Rleb_spec 0 0); [|lra]. destruct (Rleb_spec 1 0); [lra|]. rewrite andb_false_r. reflexivity.
Qed.
Lemma ninths_used : fused_points ninths 100 = [100].
Proof.
  unfold fused_points. rewrite ninths_step. unfold ninths. cbn [ax_min]. unfold fmod, fsub, fadd. rewrite Rminus_0_r, (rnd_id 100 double_100).
  assert (T : Ztrunc (100 / (6254999482459022 / 562949953421312)) = 9%Z).
  { replace (100 / (6254999482459022 / 562949953421312)) with (56294995342131200 / 6254999482459022) by (field; lra).
    rewrite Ztrunc_floor by lra. apply Zfloor_imp. rewrite plus_IZR. lra. }
  rewrite T. rewrite (rnd_is 7036874417766400 70368744177664 46) by (reflexivity || lia || near). replace (7036874417766400 / 70368744177664) with 100 by field.
  rewrite (rnd_is 7818749353073778 70368744177664 46) by (reflexivity || lia || near). unfold in_range1. cbn [ax_min ax_max].
  destruct (Rleb_spec 0 100); [|lra]. destruct (Rleb_spec 100 100); [|lra]. destruct (Rleb_spec (7818749353073778 / 70368744177664) 100); [lra|]. rewrite andb_false_r. reflexivity.
Qed.
Lemma ninths_index : fgrid_index1 ninths 100 = Ok 9%Z.
Proof.
  pose proof (index_near ninths ninths_ok ltac:(cbn; lia) 9 100) as H. unfold ninths in *. cbn [ax_n ax_min ax_max] in *. apply H.
  - cbn. lia.
  - lra.
  - unfold ideal, off. cbn [ax_min ax_max ax_n]. replace (INR 9) with 9 by (cbn; lra). replace (100 - _) with 0 by field. rewrite Rabs_R0.
    assert (0 < u53) by apply u53_pos. rewrite (Rabs_pos_eq 100) by lra. lra.
Qed.
Lemma last_plane_lost : forall nrad nint pos, (forall q, exists v, nrad q = Ok v) -> (forall q, exists v, nint q = Ok v) ->
  exists enough, forall fuel, (enough <= fuel)%nat -> exists m, fnew_map fuel nrad nint pos ninths one_point one_point CARTESIAN = Some (Ok m) /\
  fgetRadiationLength m 100 0 0 = Ok 0 /\ fgetInteractionLength m 100 0 0 = Ok 0.
Proof.
  intros nrad nint pos T1 T2.
  assert (U1 : forall q, nrad q <> UB) by (intros q; destruct (T1 q) as [v ->]; discriminate).
  assert (U2 : forall q, nint q <> UB) by (intros q; destruct (T2 q) as [v ->]; discriminate).
  destruct (axis_planes ninths ninths_ok) as (xs & PX & VX & NX). destruct (axis_single one_point one_point_ok eq_refl) as (PY & VY & NY).
  assert (LX : length xs = 9%nat).
  { destruct ninths_visited as (xs' & V & L). specialize (VX 11%nat ltac:(cbn; lia)). assert (W := visited_more 10 11 _ _ _ xs' ltac:(lia) V). change (visited 11 0 100 (fstep ninths) = Some xs) in VX. rewrite W in VX. injection VX as <-. exact L. }
  exists 11%nat. intros fuel F. unfold fnew_map.
  rewrite fbad_args_ok by (apply ninths_ok || apply one_point_ok || (left; reflexivity)).
  destruct (loops_done nrad nint (pos CARTESIAN) ninths one_point one_point xs (nodes one_point) (nodes one_point) U1 U2 NX NY NY PX PY PY fuel (VX fuel ltac:(cbn; lia)) (VY fuel ltac:(cbn; lia)) (VY fuel ltac:(cbn; lia))) as [(m & E & M1 & M2 & M3 & H)|(e & E & i & j & k & a & b & c & Ha & Hb & Hc & _ & [[e' B]|[e' B]])].
  2:{ destruct (T1 (pos CARTESIAN a b c)); congruence. }
  2:{ destruct (T2 (pos CARTESIAN a b c)); congruence. }
  exists m. split; [exact E|].
  assert (V0 : mm_val m 9 0 0 = (0, 0)).
  { specialize (H 9 0 0)%Z. rewrite M1, M2, M3 in H. specialize (H ltac:(unfold in_axis; cbn; lia) ltac:(unfold in_axis; cbn; lia) ltac:(unfold in_axis; cbn; lia)).
    assert (plane_at xs 9 = None) as N by (unfold plane_at; apply nth_error_None; rewrite LX; cbn; lia). rewrite N in H. exact H. }
  assert (I0 : fgrid_index1 one_point 0 = Ok 0%Z /\ foutside1 one_point 0 = false).
  { apply (NY 0%nat 0). unfold nodes, one_point, node. cbn. f_equal. ring. }
  assert (IX : foutside1 ninths 100 = false) by (apply inside_ok; [apply double_100|cbn; lra]).
  assert (Ix : fcalculateGridIndex m 100 0 0 = Ok (9, 0, 0)%Z).
  { unfold fcalculateGridIndex. rewrite M1, M2, M3, IX, ninths_index. destruct I0 as [-> ->]. reflexivity. }
  assert (R : finterpolateOnGrid m 100 0 0 = Ok (0, 0)).
  { unfold finterpolateOnGrid, fall_points. rewrite M1, M2, M3, ninths_used, one_point_used. cbn [flat_map map app finterp]. rewrite Ix. cbn [rbind].
    unfold mm_get. rewrite (proj2 (inb_true m 9 0 0)) by (rewrite M1, M2, M3; unfold in_axis; cbn; lia). cbn [rbind]. rewrite V0. cbn [fst snd].
    unfold fdist, fsub, fmul, fadd, fsqrt. replace (100 - 100) with 0 by ring. replace (0 - 0) with 0 by ring. repeat (rewrite rnd_0 || rewrite Rmult_0_r || rewrite Rplus_0_r || rewrite sqrt_0). rewrite Rabs_R0.
    pose proof small_size. destruct (Rltb_spec 0 fsmall); [|lra]. cbn [rbind]. destruct (Reqb_spec 1 0); [lra|]. unfold fdiv. replace (0 / 1) with 0 by lra. rewrite rnd_0. reflexivity. }
  unfold fgetRadiationLength, fgetInteractionLength. rewrite Ix, R. split; reflexivity.
Qed.
