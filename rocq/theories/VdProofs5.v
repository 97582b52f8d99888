(** Proofs about VersatileDiskRowLayout::getNearestPad behind the end of a row. *)
From Coq Require Import ZArith List String Bool Reals Lra Lia.
From Verif Require Import Base RBase ListExtra DiskBase VdModel DiskSpec DiskProofs VdProofs VdProofs2 VdProofs3 VdProofs4.
From Verif Require RectSpec RectProofs5.
Import ListNotations.
Open Scope R_scope.

Lemma corner_less : forall row r phi a b, 0 < r -> 0 < v_rCentre row - v_rowHeight row * (1 / 2) -> 0 < v_rCentre row + v_rowHeight row * (1 / 2) ->
  (corner_distance row r phi a < corner_distance row r phi b <-> cos (b - vturn phi) < cos (a - vturn phi)).
Proof.
  intros row r phi a b Hr H1 H2. unfold corner_distance. cbv zeta. fold (vturn phi).
  set (r1 := v_rCentre row - v_rowHeight row * (1 / 2)) in *. set (r2 := v_rCentre row + v_rowHeight row * (1 / 2)) in *.
  assert (S0 : forall q c, -1 <= c <= 1 -> 0 < q -> 0 <= q * q + r * r - 2 * q * r * c).
  { intros q c Hc Hq. assert (0 <= (q - r) * (q - r)) by (apply Rle_0_sqr). assert (2 * q * r * c <= 2 * q * r * 1) by (apply Rmult_le_compat_l; nra). nra. }
  set (f := fun c => if Rltb (r2 * r2 + r * r - 2 * r2 * r * c) (r1 * r1 + r * r - 2 * r1 * r * c) then r2 * r2 + r * r - 2 * r2 * r * c else r1 * r1 + r * r - 2 * r1 * r * c).
  change (sqrt (f (cos (a - vturn phi))) < sqrt (f (cos (b - vturn phi))) <-> cos (b - vturn phi) < cos (a - vturn phi)).
  assert (F0 : forall c, -1 <= c <= 1 -> 0 <= f c) by (intros c Hc; unfold f; destruct Rltb; apply S0; assumption).
  assert (FM : forall c d, c < d -> f d < f c).
  { intros c d L. assert (2 * r1 * r * c < 2 * r1 * r * d) by (apply Rmult_lt_compat_l; nra). assert (2 * r2 * r * c < 2 * r2 * r * d) by (apply Rmult_lt_compat_l; nra).
    unfold f. destruct (Rltb_spec (r2 * r2 + r * r - 2 * r2 * r * c) (r1 * r1 + r * r - 2 * r1 * r * c));
      destruct (Rltb_spec (r2 * r2 + r * r - 2 * r2 * r * d) (r1 * r1 + r * r - 2 * r1 * r * d)); lra. }
  pose proof (COS_bound (a - vturn phi)) as Ca. pose proof (COS_bound (b - vturn phi)) as Cb. split.
  - intros L. destruct (Rlt_le_dec (cos (b - vturn phi)) (cos (a - vturn phi))) as [|G]; [assumption|]. exfalso.
    assert (f (cos (b - vturn phi)) <= f (cos (a - vturn phi))) by (destruct G as [G| ->]; [left; apply FM; exact G|lra]).
    apply sqrt_le_1 in H; auto. lra.
  - intros L. apply sqrt_lt_1; auto.
Qed.
(** two arcs with a + b < 2 pi: the longer one has the smaller cosine *)
Lemma cos_arcs : forall a b, 0 <= a -> 0 <= b -> a + b < 2 * PI -> (a < b <-> cos b < cos a).
Proof.
  assert (G : forall a b, 0 <= a -> a < b -> a + b < 2 * PI -> cos b < cos a).
  { intros a b A L S2. destruct (Rle_lt_dec b PI) as [B|B]; [apply cos_decreasing_1; lra|].
    replace (cos b) with (cos (2 * PI - b)); [apply cos_decreasing_1; lra|].
    replace (2 * PI - b) with (- b + 2 * PI) by lra. rewrite cos_plus, cos_2PI, sin_2PI, cos_neg. lra. }
  intros a b A B S2. split; [intros; apply G; lra|]. intros L. destruct (Rlt_le_dec a b) as [|C]; [assumption|]. exfalso.
  destruct C as [C| ->]; [|lra]. pose proof (G b a B C ltac:(lra)). lra.
Qed.

Lemma vd_after_end : forall rMin a l, 0 < rMin -> vd_good rMin a -> va_repeat a = 1%Z -> (va_nPads a <= 65536)%Z -> vd_made rMin [VAdd a] l ->
  0 < va_pitch a -> 0 <= vd_off (rMin, a) ->
  forall r phi, 0 < r -> vd_phi (rMin, a) (va_nPads a) <= phi < 2 * PI ->
  vd_getNearestPad l r phi =
    Ok (code 0 (if Rlt_dec (vd_off (rMin, a) + 2 * PI - phi) (phi - vd_phi (rMin, a) (va_nPads a)) then 0 else va_nPads a - 1)).
Proof.
  intros rMin a l H0 HG Hrep Hb HM Hp Ho r phi Hr Hphi. destruct (vd_one rMin a ltac:(lra) HG) as [l' [HM' [_ [Erows _]]]].
  assert (l' = l) by (unfold vd_made in *; congruence). subst l'. rewrite Hrep in Erows. change (Z.to_nat 1) with 1%nat in Erows.
  rewrite more_rows_S in Erows. change (more_rows (rMin + va_height a) a 0) with (@nil (R * vd_args)) in Erows. cbn [rows_from] in Erows.
  unfold vd_getNearestPad. rewrite Erows. cbn [vd_scan rbind]. set (x := (rMin, a)) in *.
  assert (Hn : (0 < va_nPads a)%Z) by apply HG.
  assert (Hh : 0 < va_height a) by apply HG.
  assert (Hn1 : 1 <= IZR (va_nPads a)) by (apply (IZR_le 1); lia).
  assert (Hpx : 0 < vd_pitch x).
  { unfold vd_pitch, vd_rc, x. cbn [fst snd]. apply Rdiv_lt_0_compat; lra. }
  assert (Hw : vd_off x < vd_phi x (va_nPads a)) by (unfold vd_phi; nra).
  unfold vrow_getNearestPad. cbv zeta. fold (vturn phi). rewrite (vturn_id phi) by lra. rewrite row_pm. change (va_nPads (snd x)) with (va_nPads a).
  destruct (Rltb_spec phi (vd_phi x (va_nPads a))) as [C|C]; [lra|].
  cbn [v_rowNumber v_nPads the_row]. change (va_nPads (snd x)) with (va_nPads a). change (Z.of_nat 0) with 0%Z. rewrite !pack_code by lia.
  assert (Hne : forall j, (0 <= j < 65536)%Z -> (code 0 j =? -1)%Z = false).
  { intros j Hj. apply Z.eqb_neq. intros E. change (-1)%Z with (code 65535 65535) in E. apply RectProofs5.code_inj in E; lia. }
  assert (CL : corner_distance (the_row 0 x) r phi (vd_off x) < corner_distance (the_row 0 x) r phi (vd_phi x (va_nPads a)) <->
    vd_off x + 2 * PI - phi < phi - vd_phi x (va_nPads a)).
  { rewrite corner_less; [|exact Hr|unfold the_row, vd_rc, x; cbn; lra|unfold the_row, vd_rc, x; cbn; lra].
    rewrite (vturn_id phi) by lra.
    replace (cos (vd_off x - phi)) with (cos (vd_off x + 2 * PI - phi)) by (replace (vd_off x + 2 * PI - phi) with (vd_off x - phi + 2 * PI) by lra; rewrite cos_plus, cos_2PI, sin_2PI; lra).
    replace (cos (vd_phi x (va_nPads a) - phi)) with (cos (phi - vd_phi x (va_nPads a))) by (rewrite <- (cos_neg (phi - vd_phi x (va_nPads a))); f_equal; lra).
    symmetry. apply cos_arcs; lra. }
  change (v_offset (the_row 0 x)) with (vd_off x).
  match goal with |- context[Rltb ?u ?v] => destruct (Rltb_spec u v) as [L|L] end;
    destruct (Rlt_dec (vd_off x + 2 * PI - phi) (phi - vd_phi x (va_nPads a))) as [M|M]; cbn [rbind]; rewrite ?Hne by lia; try reflexivity.
  - exfalso. apply M. apply CL. exact L.
  - exfalso. apply CL in M. lra.
Qed.
