From Coq Require Import String ZArith Reals Lia Lra Psatz List.
From Flocq Require Import Core.
From Verif Require Import Base RBase VecModel NumModel NumSpec FpModel FpProofs FpRectProofs2 FpRectCases ZpModel ZpSpec ZpProofs6 FpZpModel FpZpSpec FpZpProofs.
Import ListNotations.
Open Scope R_scope.

Lemma largest_is : forall gap a sensitive m, part_ok (part_of a sensitive) -> 0 <= gap ->
  largest_distance gap (part_of a sensitive) (azimuth a m) (maxRadius (layer_of a (part_of a sensitive))).
Proof.
  intros gap a sensitive m P G. destruct (max_radius_exact 0 0 0 0 gap 0 [a] 0 sensitive a m eq_refl P G) as (r & E & H). unfold zp_getMaxRadius in E. rewrite part_at in E. cbn in E. injection E as <-. exact H.
Qed.
Lemma largest_one gap q az r s : largest_distance gap q az r -> largest_distance gap q az s -> r = s.
Proof. intros (A & p & B & C) (D & p' & E & F). apply Rle_antisym; [rewrite <- C; auto|rewrite <- F; auto]. Qed.

Lemma near_exact : forall type rIn rOut half gap rad h i sensitive m,
  match layer_args h i with
  | Some a => part_ok (part_of a sensitive) -> usual_size gap (part_of a sensitive) ->
      exists r R, fzp_getMaxRadius (zp_made type rIn rOut half gap rad h) i sensitive = Ok r /\
      largest_distance gap (part_of a sensitive) (azimuth a m) R /\ Rabs (r - R) <= R / 5000000
  | None => exists e, fzp_getMaxRadius (zp_made type rIn rOut half gap rad h) i sensitive = Throw (EOutOfRange e)
  end.
Proof.
  intros. unfold fzp_getMaxRadius. rewrite part_at. destruct (layer_args h i) as [a|]; cbn [rmap]; [|eauto].
  intros P (U1 & U2 & U3 & U4). do 2 eexists. split; [reflexivity|]. split; [apply (largest_is gap a sensitive m P U3)|].
  destruct (max_near (layer_of a (part_of a sensitive)) U1 U2) as [A B]. apply Rabs_le. split; lra.
Qed.

Lemma kept : forall type rIn rOut half gap rad h i sensitive a m p R, layer_args h i = Some a ->
  part_ok (part_of a sensitive) -> usual_size gap (part_of a sensitive) -> largest_distance gap (part_of a sensitive) (azimuth a m) R -> R <= 499 ->
  in_volume gap (part_of a sensitive) (azimuth a m) p -> zp_skips (zp_made type rIn rOut half gap rad h) i sensitive p = Ok false.
Proof.
  intros type rIn rOut half gap rd h i sensitive a m p R E P (U1 & U2 & U3 & U4) L HR V. unfold zp_skips. rewrite part_at, E, zgap. cbn [rmap]. f_equal. unfold quick_skip.
  set (q := part_of a sensitive) in *. pose proof (max_of a q P U1) as M. rewrite (largest_one _ _ _ _ _ L (largest_is gap a sensitive m P U3)) in HR. fold q in HR.
  pose proof (proj1 (largest_is gap a sensitive m P U3) p V) as LP. fold q in LP. destruct (max_near (layer_of a q) U1 U2) as [A B]. pose proof P as (Q1 & Q2 & Q3 & Q4).
  pose proof (in_rad _ _ _ _ V Q1) as RD. set (Rm := maxRadius (layer_of a q)) in *. change (axis_distance p) with (rad p) in LP.
  destruct (Rlt_dec _ _) as [X|_]; [exfalso; revert X; cbn [layer_of zl_d]; apply near_no; lra|].
  destruct (Rlt_dec _ _) as [X|_]; [exfalso; revert X; apply (far_no _ Rm); lra|].
  destruct (Rlt_dec _ _) as [X|_]; [exfalso; revert X; cbn [layer_of zl_len]; apply end_both; try lra; destruct V as (_ & _ & V); lra|]. reflexivity.
Qed.
Lemma dropped : forall type rIn rOut half gap rad h i sensitive a m p R, layer_args h i = Some a ->
  part_ok (part_of a sensitive) -> usual_size gap (part_of a sensitive) -> largest_distance gap (part_of a sensitive) (azimuth a m) R -> R <= 499 ->
  axis_distance p <= q_d (part_of a sensitive) - 2 / 10000 \/ R + 3 / 10000 <= axis_distance p \/ q_len (part_of a sensitive) + gap / 2 + 2 / 10000 <= Rabs (vz p) ->
  zp_skips (zp_made type rIn rOut half gap rad h) i sensitive p = Ok true.
Proof.
  intros type rIn rOut half gap rd h i sensitive a m p R E P (U1 & U2 & U3 & U4) L HR V. unfold zp_skips. rewrite part_at, E, zgap. cbn [rmap]. f_equal. unfold quick_skip.
  set (q := part_of a sensitive) in *. pose proof (max_of a q P U1) as M. pose proof (largest_one _ _ _ _ _ L (largest_is gap a sensitive m P U3)) as ER. fold q in ER.
  destruct (max_near (layer_of a q) U1 U2) as [A B]. pose proof P as (Q1 & Q2 & Q3 & Q4). set (Rm := maxRadius (layer_of a q)) in *. change (axis_distance p) with (rad p) in V. subst R.
  assert (HD : q_d q <= Rm). { destruct (proj2 L) as (p0 & V0 & E0). rewrite <- E0. apply (in_rad _ _ _ _ V0 Q1). }
  destruct (Rlt_dec _ _) as [X|N1]; [reflexivity|]. destruct (Rlt_dec _ _) as [X|N2]; [reflexivity|]. destruct (Rlt_dec _ _) as [X|N3]; [reflexivity|]. exfalso. destruct V as [V|[V|V]].
  - apply N1. apply near_yes; cbn [layer_of zl_d]; lra.
  - apply N2. apply (far_yes _ Rm); lra.
  - apply N3. apply end_both; cbn [layer_of zl_len]; lra.
Qed.

(** ** a layer that loses its outer edges *)
Lemma float_up x v : generic_format radix2 (FLT_exp (-149) 24) x -> v <= x -> to_float v <= x.
Proof. intros G H. rewrite <- (round_generic radix2 (FLT_exp (-149) 24) ZnearestE x G). apply round_le; [apply FLT_exp_valid; red; lia|apply valid_rnd_N|exact H]. Qed.
Lemma float_int n e : (Z.abs n < 2 ^ 24)%Z -> (0 <= e)%Z -> generic_format radix2 (FLT_exp (-149) 24) (IZR (n * 2 ^ e)).
Proof.
  intros H He. apply generic_format_FLT. exists (Float radix2 n e); [|exact H|cbn [Fexp]; lia]. unfold F2R. cbn [Fnum Fexp]. rewrite mult_IZR. f_equal. rewrite <- (IZR_Zpower radix2 e He). reflexivity.
Qed.
Lemma mag_4096 : mag radix2 4096 = 13%Z :> Z.
Proof. apply mag_unique. rewrite Rabs_pos_eq by lra. change (bpow radix2 (13 - 1)) with 4096. change (bpow radix2 13) with 8192. lra. Qed.
Lemma float_4096 v : v < 4096 + / 4096 -> to_float v <= 4096.
Proof.
  intros H. assert (V : Valid_exp (FLT_exp (-149) 24)) by (apply FLT_exp_valid; red; lia). apply round_N_le_midp; [exact V|exact (float_int 1 12 eq_refl ltac:(lia))|].
  rewrite succ_eq_pos by lra. rewrite ulp_neq_0 by lra. unfold cexp. rewrite mag_4096. change (FLT_exp (-149) 24 13) with (-11)%Z. change (bpow radix2 (-11)) with (/ 2048). lra.
Qed.

Definition loose_part : zpart := mkZP 4095 0 (1 + 255 / 1048576) 1000 6144 1.
Definition loose_args : zargs := mkZA 1 0 loose_part loose_part.
Definition loose_point : vec := mkVec (4096 + 255 / 1048576) 3072 10.
Lemma loose_double : part_double loose_part /\ vec_double loose_point.
Proof.
  unfold part_double, vec_double, loose_part, loose_point. cbn [q_d q_off q_t q_len q_w q_rad vx vy vz]. repeat split.
  - dint 4095%Z. - dint 0%Z. - apply (double_frac 1048831 (-20)); [unfold powerRZ; simpl; lra|reflexivity|lia]. - dint 1000%Z. - dint 6144%Z. - dint 1%Z.
  - apply (double_frac 4294967551 (-20)); [unfold powerRZ; simpl; lra|reflexivity|lia]. - dint 3072%Z. - dint 10%Z.
Qed.
Lemma loose_in sensitive : in_volume 0 (part_of loose_args sensitive) (azimuth loose_args 0) loose_point.
Proof.
  replace (part_of loose_args sensitive) with loose_part by (destruct sensitive; reflexivity). unfold in_volume, azimuth, along, across, loose_args, loose_part, loose_point. cbn [za_phi0 za_n q_d q_off q_t q_len q_w vx vy vz].
  replace (0 + 0 * (2 * PI / 1)) with 0 by lra. rewrite cos_0, sin_0, Rabs_pos_eq by lra. lra.
Qed.
Lemma loose_max : fmaxRadius (layer_of loose_args loose_part) <= 5120.
Proof.
  unfold fmaxRadius. cbv zeta. cbn [layer_of loose_part zl_d zl_t zl_w zl_off q_d q_t q_w q_off]. rewrite Rabs_R0.
  set (d := to_float (fadd 4095 _)). set (w := to_float (fadd (fdiv 6144 2) 0)).
  assert (F0 : generic_format radix2 (FLT_exp (-149) 24) 0) by apply generic_format_0.
  assert (P : forall x, 0 <= x -> 0 <= to_float x) by (intros x Hx; unfold to_float; apply round_ge_generic; [apply FLT_exp_valid; red; lia|apply valid_rnd_N|exact F0|exact Hx]).
  assert (D : 0 <= d <= 4096).
  { unfold d, fadd. assert (L : 4095 <= to_double (4095 + (1 + 255 / 1048576))) by (apply rnd_lo; [dint 4095%Z|lra]). split; [apply P; lra|]. apply float_4096.
    rewrite rnd_id; [lra|]. apply (double_frac 4294967551 (-20)); [unfold powerRZ; simpl; lra|reflexivity|lia]. }
  assert (W : 0 <= w <= 3072).
  { unfold w, fadd, fdiv. rewrite (rnd_id (6144 / 2)) by (apply (double_frac 3072 0); [cbn [powerRZ]; lra|reflexivity|lia]). rewrite rnd_id by (apply (double_frac 3072 0); [cbn [powerRZ]; lra|reflexivity|lia]).
    split; [apply P; lra|]. apply float_up; [exact (float_int 3072 0 eq_refl ltac:(lia))|lra]. }
  assert (D2 : to_float (d * d) <= 16777216) by (apply float_up; [exact (float_int 1 24 eq_refl ltac:(lia))|nra]).
  assert (W2 : to_float (w * w) <= 9437184) by (apply float_up; [exact (float_int 9437184 0 eq_refl ltac:(lia))|nra]).
  assert (S : to_float (to_float (d * d) + to_float (w * w)) <= 26214400) by (apply float_up; [exact (float_int 13107200 1 eq_refl ltac:(lia))|lra]).
  apply float_up; [exact (float_int 5120 0 eq_refl ltac:(lia))|]. rewrite <- (sqrt_square 5120) by lra. apply sqrt_le_1_alt. lra.
Qed.
Lemma loose_prad : 5120 + / 8192 <= pRadius loose_point.
Proof.
  unfold pRadius, loose_point, fadd. cbn [vx vy]. apply rnd_lo; [apply (double_frac 41943041 (-13)); [unfold powerRZ; simpl; lra|reflexivity|lia]|].
  rewrite <- (sqrt_square (5120 + / 8192)) by lra. apply sqrt_le_1_alt. apply Rle_trans with (26214400 + 7 / 4); [lra|]. apply rnd_lo; [apply (double_frac 104857607 (-2)); [unfold powerRZ; simpl; lra|reflexivity|lia]|].
  assert (A : 16777216 + 7 / 4 <= to_double ((4096 + 255 / 1048576) * (4096 + 255 / 1048576))) by (apply rnd_lo; [apply (double_frac 67108871 (-2)); [unfold powerRZ; simpl; lra|reflexivity|lia]|lra]).
  assert (B : 9437184 <= to_double (3072 * 3072)) by (apply rnd_lo; [dint 9437184%Z|lra]). lra.
Qed.
Lemma loose_skipped : forall type rIn rOut half rad sensitive, zp_skips (zp_made type rIn rOut half 0 rad [loose_args]) 0 sensitive loose_point = Ok true.
Proof.
  intros. unfold zp_skips. rewrite part_at. change (layer_args [loose_args] 0) with (Some loose_args). cbn [rmap]. f_equal. unfold quick_skip. destruct (Rlt_dec _ _) as [X|_]; [reflexivity|]. destruct (Rlt_dec _ _) as [X|N]; [reflexivity|]. exfalso. apply N.
  replace (part_of loose_args sensitive) with loose_part by (destruct sensitive; reflexivity). pose proof loose_max as M. pose proof loose_prad as Q. pose proof eps_near as [_ E2].
  apply Rle_lt_trans with (5120 + 7 / 65536); [|lra]. unfold fadd. apply rnd_up; [apply (double_frac 335544327 (-16)); [unfold powerRZ; simpl; lra|reflexivity|lia]|]. unfold u64 in E2. lra.
Qed.
Lemma loose_short : forall type rIn rOut half rad sensitive, exists r R, fzp_getMaxRadius (zp_made type rIn rOut half 0 rad [loose_args]) 0 sensitive = Ok r /\
  largest_distance 0 (part_of loose_args sensitive) (azimuth loose_args 0) R /\ r + 1 / 10000 < R.
Proof.
  intros. unfold fzp_getMaxRadius. rewrite part_at. change (layer_args [loose_args] 0) with (Some loose_args). cbn [rmap].
  assert (P : part_ok (part_of loose_args sensitive)) by (replace (part_of loose_args sensitive) with loose_part by (destruct sensitive; reflexivity); unfold part_ok, loose_part; cbn [q_d q_t q_len q_w]; lra).
  do 2 eexists. split; [reflexivity|]. split; [apply (largest_is 0 loose_args sensitive 0 P); lra|]. replace (part_of loose_args sensitive) with loose_part by (destruct sensitive; reflexivity).
  pose proof loose_max as M. apply Rle_lt_trans with (5120 + 1 / 10000); [lra|]. apply Rlt_le_trans with (5120 + / 8192); [lra|].
  rewrite <- (sqrt_square (5120 + / 8192)) by lra. unfold maxRadius. cbv zeta. cbn [layer_of loose_part zl_d zl_t zl_w zl_off q_d q_t q_w q_off]. rewrite Rabs_R0. apply sqrt_le_1_alt. lra.
Qed.
