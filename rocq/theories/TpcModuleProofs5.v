(** Proofs about a single TPC module: the phi range of a moved polar layout in a polar TPC. *)
From Coq Require Import ZArith List String Bool Reals Lra Lia.
From Flocq Require Import Core.Raux.
From Verif Require Import Base RBase Trig DiskBase DiskSpec DiskProofs TpcModuleModel TpcModel TpcSpec
  TpcModuleProofs TpcModuleProofs2 TpcModuleProofs3 TpcModuleProofs4 TpcAngle.
From Verif Require RectSpec.
Import ListNotations.
Open Scope R_scope.

(** ** the loops *)
Definition good (P : R -> Prop) (p : R * R) : Prop := fst p <= snd p <= fst p + 2 * PI /\ is_range P (fst p) (snd p).
Lemma pair_below_len a b L : 0 <= a < 2 * PI -> 0 <= b < 2 * PI -> same_angle (b - a) L -> 0 <= L < 2 * PI ->
  snd (pair_below a b) - fst (pair_below a b) = L /\ snd (pair_below a b) = b.
Proof.
  intros A B S HL. unfold pair_below. cbn [fst snd]. split; [|reflexivity].
  assert (W : 0 <= b - wrap_down b a < 2 * PI).
  { pose proof (wrap_down_bounds b a) as [W1 W2]. split; [lra|]. destruct (Rlt_le_dec b a) as [C|C]; [specialize (W2 C); lra|].
    rewrite wrap_down_id by auto. lra. }
  apply same_near; [|lra]. destruct (wrap_down_same b a) as [k K]. destruct S as [j J]. exists (j - k)%Z. rewrite minus_IZR. lra.
Qed.
Lemma pair_force_turn p : exists k : Z, fst (pair_force p) = fst p + 2 * PI * IZR k /\ snd (pair_force p) = snd p + 2 * PI * IZR k.
Proof.
  unfold pair_force. cbn [fst snd]. set (d := wrap_down (2 * PI) (snd p) - snd p). set (u := wrap_up (-2 * PI) (fst p + d) - (fst p + d)).
  destruct (wrap_down_same (2 * PI) (snd p)) as [k K]. destruct (wrap_up_same (-2 * PI) (fst p + d)) as [j J].
  exists (k + j)%Z. rewrite plus_IZR. assert (Ed : d = 2 * PI * IZR k) by (unfold d; lra). assert (Eu : u = 2 * PI * IZR j) by (unfold u; lra). lra.
Qed.
Lemma good_force P p : good P p -> good P (pair_force p).
Proof.
  intros [B H]. destruct (pair_force_turn p) as (k & E1 & E2). unfold good. rewrite E1, E2. split; [lra|]. now apply range_shift.
Qed.
Lemma good_finish D r0 r1 t0 t1 G lo hi p : is_range (sees D r0 r1 t0 t1) lo hi -> 0 <= hi - lo <= 2 * PI ->
  same_angle (snd p - G) hi -> snd p - fst p = hi - lo -> good (fun th => sees D r0 r1 t0 t1 (th - G)) p.
Proof.
  intros H L [k K] E. split; [lra|]. apply (range_rotate _ _ _ G) in H. apply (range_shift _ _ _ k) in H.
  replace (fst p) with (lo + G + 2 * PI * IZR k) by lra. now replace (snd p) with (hi + G + 2 * PI * IZR k) by lra.
Qed.
Lemma above_is bot a d : 0 <= bot < 2 * PI -> 0 <= a < 2 * PI -> same_angle (a - bot) d -> 0 <= d < 2 * PI ->
  above bot a = bot + d /\ above' bot a = bot + d.
Proof.
  intros B A S HD. unfold above, above'.
  assert (E : wrap_down (bot + 2 * PI) a = a) by (apply wrap_down_id; lra). rewrite E.
  assert (W : bot <= wrap_up bot a < bot + 2 * PI).
  { pose proof (wrap_up_bounds bot a) as [W1 W2]. destruct (Rlt_le_dec a bot) as [C|C]; [specialize (W2 C); lra|]. rewrite wrap_up_id by auto. lra. }
  rewrite (wrap_down_id _ (wrap_up bot a)) by lra.
  assert (wrap_up bot a = bot + d); [|auto].
  apply same_near; [|lra]. destruct (wrap_up_same bot a) as [k K]. destruct S as [j J]. exists (k + j)%Z. rewrite plus_IZR. lra.
Qed.
Lemma below_is top a d : 0 <= top < 2 * PI -> 0 <= a < 2 * PI -> same_angle (top - a) d -> 0 <= d < 2 * PI -> below top a = top - d.
Proof.
  intros B A S HD. unfold below. rewrite wrap_up_id by lra.
  assert (W : top - 2 * PI < wrap_down top a <= top).
  { pose proof (wrap_down_bounds top a) as [W1 W2]. destruct (Rlt_le_dec top a) as [C|C]; [specialize (W2 C); lra|]. rewrite wrap_down_id by auto. lra. }
  apply same_near; [|lra]. destruct (wrap_down_same top a) as [k K]. destruct S as [j J]. exists (k - j)%Z. rewrite minus_IZR. lra.
Qed.

(** ** the cases of the code, in the frame of the observer *)
Section Cases.
Variables D r0 r1 T0 T1 G b00 b01 b10 b11 : R.
Hypothesis HD : 0 < D < r1.
Hypothesis Hr : 0 <= r0 <= r1.
Hypothesis HT : T0 <= T1.
Hypothesis B00 : 0 <= b00 < 2 * PI.
Hypothesis B01 : 0 <= b01 < 2 * PI.
Hypothesis B10 : 0 <= b10 < 2 * PI.
Hypothesis B11 : 0 <= b11 < 2 * PI.
Hypothesis E00 : dir_of (r0 * cos T0 - D) (r0 * sin T0) (b00 - G).
Hypothesis E01 : dir_of (r0 * cos T1 - D) (r0 * sin T1) (b01 - G).
Hypothesis E10 : dir_of (r1 * cos T0 - D) (r1 * sin T0) (b10 - G).
Hypothesis E11 : dir_of (r1 * cos T1 - D) (r1 * sin T1) (b11 - G).
Hypothesis HO : forall r t, r0 <= r <= r1 -> T0 <= t <= T1 -> ~ (r * cos t - D = 0 /\ r * sin t = 0).

Let P := fun th => sees D r0 r1 T0 T1 (th - G).

Lemma up_angle r t b : 0 <= r -> 0 <= t <= PI -> dir_of (r * cos t - D) (r * sin t) (b - G) -> same_angle (b - G) (delta D r t).
Proof. intros R T E. destruct (upper_turn (r * cos t - D) (r * sin t) (b - G) ltac:(apply Rmult_le_pos; [lra|apply sin_ge_0; lra]) E) as [k K]. exists k. exact K. Qed.
Lemma low_angle r t b : 0 <= r -> - PI <= t <= 0 -> dir_of (r * cos t - D) (r * sin t) (b - G) -> same_angle (b - G) (- delta D r (- t)).
Proof.
  intros R T (q & Q & X & Y).
  assert (E : dir_of (r * cos (- t) - D) (r * sin (- t)) (G - b)).
  { exists q. rewrite cos_neg, sin_neg. replace (G - b) with (- (b - G)) by lra. rewrite cos_neg, sin_neg. repeat split; try lra. }
  destruct (upper_turn (r * cos (- t) - D) (r * sin (- t)) (G - b) ltac:(apply Rmult_le_pos; [lra|apply sin_ge_0; lra]) E) as [k K]. exists (- k)%Z. rewrite opp_IZR. unfold delta. lra.
Qed.
(** the observer is not on the sector where the sector crosses the axis towards the observer *)
Lemma on_axis k : T0 <= 2 * PI * IZR k <= T1 -> D < r0.
Proof.
  intros T. destruct (Rlt_le_dec D r0) as [|L]; auto. exfalso. apply (HO D (2 * PI * IZR k)); [lra|auto|].
  replace (2 * PI * IZR k) with (0 + 2 * PI * IZR k) by lra. rewrite cos_shift', sin_shift', cos_0, sin_0. lra.
Qed.
Lemma delta_pos r t : 0 < r -> 0 < t <= PI -> 0 < delta D r t.
Proof.
  intros R T. pose proof (delta_bounds D r t ltac:(lra) ltac:(lra)) as B. destruct (Req_dec (delta D r t) 0) as [Z|Z]; [|lra]. exfalso.
  destruct (Req_dec t PI) as [->|N]; [rewrite delta_PI in Z by lra; pose proof PI_RGT_0; lra|].
  pose proof (sin_gt_0 t ltac:(lra) ltac:(lra)) as S.
  assert (0 < r * sin t) by (now apply Rmult_lt_0_compat).
  destruct (dir_exists (r * cos t - D) (r * sin t) ltac:(right; lra)) as (q & Q & _ & Y). fold (delta D r t) in Y. rewrite Z, sin_0 in Y. lra.
Qed.
Lemma delta_lt r t : D < r -> 0 <= t < PI -> delta D r t < PI.
Proof.
  intros R T. pose proof (delta_bounds D r t ltac:(lra) ltac:(lra)) as B. destruct (Req_dec (delta D r t) PI) as [Z|Z]; [|lra]. exfalso.
  destruct (Req_dec t 0) as [->|N]; [rewrite delta_0 in Z by lra; pose proof PI_RGT_0; lra|].
  pose proof (sin_gt_0 t ltac:(lra) ltac:(lra)) as S.
  assert (0 < r * sin t) by (apply Rmult_lt_0_compat; lra).
  destruct (dir_exists (r * cos t - D) (r * sin t) ltac:(right; lra)) as (q & Q & _ & Y). fold (delta D r t) in Y. rewrite Z, sin_PI in Y. lra.
Qed.
Ltac sa H := let k := fresh "k" in let K := fresh "K" in destruct H as [k K].

Lemma n_near : - PI <= T0 <= 0 -> 0 <= T1 <= PI -> - PI < T0 \/ T1 < PI -> good P (pair_force (pair_below b00 b01)).
Proof.
  intros H0 H1 H2. assert (D < r0) by (apply (on_axis 0); lra).
  pose proof (delta_bounds D r0 T1 ltac:(lra) ltac:(lra)). pose proof (delta_bounds D r0 (- T0) ltac:(lra) ltac:(lra)).
  assert (delta D r0 (- T0) < PI \/ delta D r0 T1 < PI).
  { destruct H2; [left|right]; apply delta_lt; lra. }
  pose proof (low_angle r0 T0 b00 ltac:(lra) ltac:(lra) E00) as S0. pose proof (up_angle r0 T1 b01 ltac:(lra) ltac:(lra) E01) as S1.
  apply good_force. destruct (pair_below_len b00 b01 (delta D r0 T1 + delta D r0 (- T0)) B00 B01) as [L S]; [|lra|].
  - sa S0. sa S1. exists (k0 - k)%Z. rewrite minus_IZR. lra.
  - eapply good_finish; [apply near_range; lra|lra|rewrite S; exact S1|lra].
Qed.
Lemma n_far k : 0 <= T0 - 2 * PI * IZR k <= PI -> PI <= T1 - 2 * PI * IZR k <= 2 * PI ->
  0 < T0 - 2 * PI * IZR k \/ T1 - 2 * PI * IZR k < 2 * PI -> good P (pair_force (pair_below b10 b11)).
Proof.
  intros H0 H1 H2. set (t0 := T0 - 2 * PI * IZR k) in *. set (t1 := T1 - 2 * PI * IZR k) in *.
  assert (ET0 : T0 = t0 + 2 * PI * IZR k) by (unfold t0; lra). assert (ET1 : T1 = t1 + 2 * PI * IZR k) by (unfold t1; lra).
  assert (N : 0 < t0 /\ t1 < 2 * PI \/ D < r0).
  { destruct (Req_dec t0 0) as [Z|Z]; [right; apply (on_axis k); lra|].
    destruct (Req_dec t1 (2 * PI)) as [Z'|Z']; [right; apply (on_axis (k + 1)); rewrite plus_IZR; lra|left; lra]. }
  rewrite ET0, cos_shift', sin_shift' in E10. rewrite ET1, cos_shift', sin_shift' in E11.
  pose proof (far_range D r0 r1 t0 t1 HD Hr ltac:(lra) ltac:(lra) N) as F.
  pose proof (delta_bounds D r1 t0 ltac:(lra) ltac:(lra)). pose proof (delta_bounds D r1 (2 * PI - t1) ltac:(lra) ltac:(lra)).
  assert (0 < delta D r1 t0 \/ 0 < delta D r1 (2 * PI - t1)).
  { destruct H2; [left|right]; apply delta_pos; lra. }
  pose proof (up_angle r1 t0 b10 ltac:(lra) ltac:(lra) E10) as S0.
  assert (S1 : same_angle (b11 - G) (2 * PI - delta D r1 (2 * PI - t1))).
  { assert (Q : same_angle (b11 - G) (- delta D r1 (- (t1 - 2 * PI)))).
    { apply low_angle; [lra|lra|]. replace (t1 - 2 * PI) with (t1 + 2 * PI * IZR (-1)) by (simpl; lra). now rewrite cos_shift', sin_shift'. }
    replace (- (t1 - 2 * PI)) with (2 * PI - t1) in Q by lra. sa Q. exists (k0 - 1)%Z. rewrite minus_IZR. lra. }
  apply good_force. destruct (pair_below_len b10 b11 (2 * PI - delta D r1 (2 * PI - t1) - delta D r1 t0) B10 B11) as [L S]; [|lra|].
  - sa S0. sa S1. exists (k1 - k0)%Z. rewrite minus_IZR. lra.
  - assert (GG : good (fun th => sees D r0 r1 t0 t1 (th - G)) (pair_below b10 b11)).
    { eapply good_finish; [exact F|lra|rewrite S; exact S1|lra]. }
    destruct GG as [GB GR]. split; auto. eapply range_ext; [|exact GR]. intros th. cbv beta. unfold P. rewrite ET0, ET1. apply sees_turn.
Qed.
Lemma n_up k ab : ab = above \/ ab = above' -> 0 <= T0 - 2 * PI * IZR k -> T1 - 2 * PI * IZR k <= PI ->
  good P (b10, upper (ab b10 b00) (ab b10 b01)).
Proof.
  intros Hab H0 H1. set (t0 := T0 - 2 * PI * IZR k) in *. set (t1 := T1 - 2 * PI * IZR k) in *.
  assert (ET0 : T0 = t0 + 2 * PI * IZR k) by (unfold t0; lra). assert (ET1 : T1 = t1 + 2 * PI * IZR k) by (unfold t1; lra).
  assert (N : 0 < t0 \/ D < r0).
  { destruct (Req_dec t0 0) as [Z|Z]; [right; apply (on_axis k); lra|left; lra]. }
  assert (TT : 0 <= t0 <= t1 /\ t1 <= PI) by lra.
  rewrite ET0, cos_shift', sin_shift' in E10, E00. rewrite ET1, cos_shift', sin_shift' in E01.
  pose proof (upper_range D r0 r1 t0 t1 HD Hr TT N) as F. destruct (upper_corners D r0 r1 t0 t1 HD Hr TT N) as [C0 C1].
  pose proof (delta_bounds D r1 t0 ltac:(lra) ltac:(lra)). pose proof (delta_bounds D r0 t0 ltac:(lra) ltac:(lra)). pose proof (delta_bounds D r0 t1 ltac:(lra) ltac:(lra)).
  pose proof (up_angle r1 t0 b10 ltac:(lra) ltac:(lra) E10) as S0. pose proof (up_angle r0 t0 b00 ltac:(lra) ltac:(lra) E00) as S1.
  pose proof (up_angle r0 t1 b01 ltac:(lra) ltac:(lra) E01) as S2. pose proof PI_RGT_0.
  assert (A0 : ab b10 b00 = b10 + (delta D r0 t0 - delta D r1 t0)).
  { destruct (above_is b10 b00 (delta D r0 t0 - delta D r1 t0) B10 B00) as [X Y]; [|lra|destruct Hab; subst ab; auto].
    sa S0. sa S1. exists (k1 - k0)%Z. rewrite minus_IZR. lra. }
  assert (A1 : ab b10 b01 = b10 + (delta D r0 t1 - delta D r1 t0)).
  { destruct (above_is b10 b01 (delta D r0 t1 - delta D r1 t0) B10 B01) as [X Y]; [|lra|destruct Hab; subst ab; auto].
    sa S0. sa S2. exists (k1 - k0)%Z. rewrite minus_IZR. lra. }
  rewrite A0, A1, upper_max.
  assert (M : Rmax (b10 + (delta D r0 t0 - delta D r1 t0)) (b10 + (delta D r0 t1 - delta D r1 t0)) = b10 + (Rmax (delta D r0 t0) (delta D r0 t1) - delta D r1 t0)).
  { unfold Rmax. destruct (Rle_dec _ _), (Rle_dec _ _); lra. }
  rewrite M. assert (BM : delta D r1 t0 <= Rmax (delta D r0 t0) (delta D r0 t1) <= PI) by (unfold Rmax; destruct (Rle_dec _ _); lra).
  assert (GG : good (fun th => sees D r0 r1 t0 t1 (th - G)) (b10, b10 + (Rmax (delta D r0 t0) (delta D r0 t1) - delta D r1 t0))).
  { eapply good_finish; [exact F|lra| |cbn [fst snd]; lra]. cbn [snd]. sa S0. exists k0. lra. }
  destruct GG as [GB GR]. split; auto. eapply range_ext; [|exact GR]. intros th. cbv beta. unfold P. rewrite ET0, ET1. apply sees_turn.
Qed.
Lemma n_low k : - PI <= T0 - 2 * PI * IZR k -> T1 - 2 * PI * IZR k <= 0 ->
  good P (lower (below b11 b00) (below b11 b01), b11).
Proof.
  intros H0 H1. set (t0 := T0 - 2 * PI * IZR k) in *. set (t1 := T1 - 2 * PI * IZR k) in *.
  assert (ET0 : T0 = t0 + 2 * PI * IZR k) by (unfold t0; lra). assert (ET1 : T1 = t1 + 2 * PI * IZR k) by (unfold t1; lra).
  assert (N : 0 < - t1 \/ D < r0).
  { destruct (Req_dec t1 0) as [Z|Z]; [right; apply (on_axis k); lra|left; lra]. }
  assert (TT : 0 <= - t1 <= - t0 /\ - t0 <= PI) by lra.
  rewrite ET0, cos_shift', sin_shift' in E00. rewrite ET1, cos_shift', sin_shift' in E01, E11.
  pose proof (lower_range D r0 r1 (- t1) (- t0) HD Hr TT N) as F. rewrite !Ropp_involutive in F.
  destruct (upper_corners D r0 r1 (- t1) (- t0) HD Hr TT N) as [C0 C1].
  pose proof (delta_bounds D r1 (- t1) ltac:(lra) ltac:(lra)). pose proof (delta_bounds D r0 (- t0) ltac:(lra) ltac:(lra)). pose proof (delta_bounds D r0 (- t1) ltac:(lra) ltac:(lra)).
  pose proof (low_angle r1 t1 b11 ltac:(lra) ltac:(lra) E11) as S0. pose proof (low_angle r0 t0 b00 ltac:(lra) ltac:(lra) E00) as S1.
  pose proof (low_angle r0 t1 b01 ltac:(lra) ltac:(lra) E01) as S2. pose proof PI_RGT_0.
  assert (A0 : below b11 b00 = b11 - (delta D r0 (- t0) - delta D r1 (- t1))).
  { apply below_is; auto; [|lra]. sa S0. sa S1. exists (k0 - k1)%Z. rewrite minus_IZR. lra. }
  assert (A1 : below b11 b01 = b11 - (delta D r0 (- t1) - delta D r1 (- t1))).
  { apply below_is; auto; [|lra]. sa S0. sa S2. exists (k0 - k1)%Z. rewrite minus_IZR. lra. }
  rewrite A0, A1, lower_min.
  assert (M : Rmin (b11 - (delta D r0 (- t0) - delta D r1 (- t1))) (b11 - (delta D r0 (- t1) - delta D r1 (- t1)))
              = b11 - (Rmax (delta D r0 (- t1)) (delta D r0 (- t0)) - delta D r1 (- t1))).
  { unfold Rmax, Rmin. destruct (Rle_dec _ _), (Rle_dec _ _); lra. }
  rewrite M. assert (BM : delta D r1 (- t1) <= Rmax (delta D r0 (- t1)) (delta D r0 (- t0)) <= PI) by (unfold Rmax; destruct (Rle_dec _ _); lra).
  assert (GG : good (fun th => sees D r0 r1 t0 t1 (th - G)) (b11 - (Rmax (delta D r0 (- t1)) (delta D r0 (- t0)) - delta D r1 (- t1)), b11)).
  { eapply good_finish; [exact F|lra| |cbn [fst snd]; lra]. cbn [snd]. sa S0. exists k0. lra. }
  destruct GG as [GB GR]. split; auto. eapply range_ext; [|exact GR]. intros th. cbv beta. unfold P. rewrite ET0, ET1. apply sees_turn.
Qed.
Lemma good_sight lo hi a b : is_range (sees D r0 r1 T0 T1) lo hi -> PI <= hi - lo < 3 * PI -> 0 <= a < 2 * PI -> 0 <= b < 2 * PI ->
  same_angle (b - G) hi -> same_angle (a - G) lo -> good P (pair_no_sight (pair_below a b)).
Proof.
  intros F L Ba Bb Sb Sa. unfold pair_no_sight. pose proof PI_RGT_0.
  destruct (Rlt_le_dec (hi - lo) (2 * PI)) as [C|C].
  - destruct (pair_below_len a b (hi - lo) Ba Bb) as [E S]; [|lra|].
    + sa Sa. sa Sb. exists (k0 - k)%Z. rewrite minus_IZR. lra.
    + unfold Rltb. destruct (Rlt_dec _ _); [lra|]. apply good_force. eapply good_finish; [exact F|lra|rewrite S; exact Sb|lra].
  - destruct (pair_below_len a b (hi - lo - 2 * PI) Ba Bb) as [E S]; [|lra|].
    + sa Sa. sa Sb. exists (k0 - k + 1)%Z. rewrite plus_IZR, minus_IZR. lra.
    + unfold Rltb. destruct (Rlt_dec _ _); [|lra]. split; cbn [fst snd]; [lra|].
      apply (range_rotate _ _ _ G) in F. eapply range_full; [|exact F]. lra.
Qed.
Lemma n_both : - PI <= T0 <= 0 -> PI <= T1 <= 2 * PI -> T1 <= T0 + 2 * PI -> good P (pair_no_sight (pair_below b00 b11)).
Proof.
  intros H0 H1 H2. pose proof PI_RGT_0. assert (D < r0) by (apply (on_axis 0); lra).
  pose proof (both_range D r0 r1 T0 T1 ltac:(lra) ltac:(lra) H0 H1 H2) as F.
  pose proof (both_length D r0 r1 T0 T1 ltac:(lra) ltac:(lra) H0 H1 H2) as L.
  apply good_sight with (lo := - delta D r0 (- T0)) (hi := 2 * PI - delta D r1 (2 * PI - T1)); auto; try lra.
  - assert (Q : same_angle (b11 - G) (- delta D r1 (- (T1 - 2 * PI)))).
    { apply low_angle; [lra|lra|]. replace (T1 - 2 * PI) with (T1 + 2 * PI * IZR (-1)) by (simpl; lra). now rewrite cos_shift', sin_shift'. }
    replace (- (T1 - 2 * PI)) with (2 * PI - T1) in Q by lra. sa Q. exists (k - 1)%Z. rewrite minus_IZR. lra.
  - apply low_angle; auto; lra.
Qed.
Lemma n_both' : 0 <= T1 <= PI -> - 2 * PI <= T0 <= - PI -> T1 <= T0 + 2 * PI -> good P (pair_no_sight (pair_below b10 b01)).
Proof.
  intros H1 H0 H2. pose proof PI_RGT_0. assert (D < r0) by (apply (on_axis 0); lra).
  pose proof (both_range' D r0 r1 T0 T1 ltac:(lra) ltac:(lra) H1 H0 H2) as F.
  pose proof (both_length D r0 r1 (- T1) (- T0) ltac:(lra) ltac:(lra) ltac:(lra) ltac:(lra) ltac:(lra)) as L.
  rewrite Ropp_involutive in L. replace (2 * PI - - T0) with (T0 + 2 * PI) in L by lra.
  apply good_sight with (lo := delta D r1 (T0 + 2 * PI) - 2 * PI) (hi := delta D r0 T1); auto; try lra.
  - apply up_angle; auto; lra.
  - assert (Q : same_angle (b10 - G) (delta D r1 (T0 + 2 * PI))).
    { apply up_angle; [lra|lra|]. replace (T0 + 2 * PI) with (T0 + 2 * PI * IZR 1) by (simpl; lra). now rewrite cos_shift', sin_shift'. }
    sa Q. exists (k + 1)%Z. rewrite plus_IZR. lra.
Qed.
End Cases.

(** ** the code, for an origin closer than the outer radius *)
Definition sg (neg : bool) (x : R) : R := if neg then - x else x.
Lemma dir_reflect D r t th : dir_of (r * cos t - D) (r * sin t) (- th) -> dir_of (r * cos (- t) - D) (r * sin (- t)) th.
Proof.
  intros (q & Q & X & Y). exists q. rewrite cos_neg, sin_neg in *. repeat split; lra.
Qed.
Lemma good_reflect D r0 r1 t0 t1 G p : good (fun th => sees D r0 r1 (- t1) (- t0) (th - G)) p ->
  good (fun th => sees D r0 r1 t0 t1 (- (th - G))) p.
Proof.
  intros [B H]. split; auto. eapply range_ext; [|exact H]. intros th. cbv beta.
  rewrite (sees_reflect D r0 r1 t0 t1 (- (th - G))). now rewrite Ropp_involutive.
Qed.
Lemma lower_comm a b : lower a b = lower b a.
Proof. rewrite !lower_min. apply Rmin_comm. Qed.
Lemma upper_comm a b : upper a b = upper b a.
Proof. rewrite !upper_max. apply Rmax_comm. Qed.

Lemma phi_inside_good m l o a0 a1 a2 a3 G neg : sane_extent POLAR l -> 0 < fst o < e1 l -> Rltb 0 (m_z m) = negb neg ->
  let g := wrap_down (e2 l + 2 * PI) (wrap_up (e2 l) (snd o)) in
  0 <= a0 < 2 * PI -> 0 <= a1 < 2 * PI -> 0 <= a2 < 2 * PI -> 0 <= a3 < 2 * PI ->
  dir_of (e0 l * cos (e2 l - g) - fst o) (e0 l * sin (e2 l - g)) (sg neg (a0 - G)) ->
  dir_of (e0 l * cos (e3 l - g) - fst o) (e0 l * sin (e3 l - g)) (sg neg (a1 - G)) ->
  dir_of (e1 l * cos (e2 l - g) - fst o) (e1 l * sin (e2 l - g)) (sg neg (a2 - G)) ->
  dir_of (e1 l * cos (e3 l - g) - fst o) (e1 l * sin (e3 l - g)) (sg neg (a3 - G)) ->
  (forall r t, e0 l <= r <= e1 l -> e2 l - g <= t <= e3 l - g -> ~ (r * cos t - fst o = 0 /\ r * sin t = 0)) ->
  good (fun th => sees (fst o) (e0 l) (e1 l) (e2 l - g) (e3 l - g) (sg neg (th - G))) (pp_phi_inside m l o a0 a1 a2 a3).
Proof.
  intros (S1 & S2 & S3) HD Hz g B0 B1 B2 B3 D0 D1 D2 D3 HO. destruct (S3 eq_refl) as [S4 S5]. clear S3.
  pose proof PI_RGT_0 as P. pose proof (wrap_window (e2 l) (e2 l + 2 * PI) (snd o) ltac:(lra)) as W. fold g in W.
  unfold pp_phi_inside. fold g. rewrite Hz. set (D := fst o) in *. set (T0 := e2 l - g) in *. set (T1 := e3 l - g) in *.
  assert (TT : T0 <= T1) by (unfold T0, T1; lra).
  assert (HOn : forall r t, e0 l <= r <= e1 l -> - T1 <= t <= - T0 -> ~ (r * cos t - D = 0 /\ r * sin t = 0)).
  { intros r t R T [X Y]. apply (HO r (- t)); [auto|lra|]. rewrite cos_neg, sin_neg. lra. }
  assert (OA : T0 <= 0 <= T1 -> D < e0 l).
  { intros T. destruct (Rlt_le_dec D (e0 l)) as [|L]; auto. exfalso. apply (HO D 0); [lra|auto|]. rewrite cos_0, sin_0. lra. }
  unfold Rltb, Rleb.
  destruct neg; cbn [negb sg] in *.
  - (* mirrored *)
    apply dir_reflect in D0, D1, D2, D3. fold T0 in D0, D2. fold T1 in D1, D3.
    apply good_reflect.
    destruct (Rlt_dec (e3 l - e2 l) PI) as [CA|CA].
    + destruct (Rlt_dec g (e3 l)) as [C1|C1].
      { destruct (Rle_dec D (e0 l)) as [C|C]; [|exfalso; apply C; left; apply OA; unfold T0, T1; lra].
        apply n_near; auto; unfold T0, T1; lra. }
      destruct (Rlt_dec g (e2 l + PI)) as [C2|C2].
      { rewrite (upper_comm (above' a3 a0)). apply (n_up D (e0 l) (e1 l) (- T1) (- T0) G a1 a0 a3) with (k := 0%Z); auto; try lra; unfold T0, T1; lra. }
      destruct (Rlt_dec g (e3 l + PI)) as [C3|C3].
      { apply n_far with (b00 := a0) (k := 0%Z); auto; unfold T0, T1; lra. }
      rewrite (lower_comm (below a2 a0)). apply (n_low D (e0 l) (e1 l) (- T1) (- T0) G a1 a0 a2) with (k := 1%Z); auto; try lra; unfold T0, T1; lra.
    + destruct (Rlt_dec (e3 l) g) as [C1|C1].
      { apply n_far with (b00 := a0) (k := 0%Z); auto; unfold T0, T1; lra. }
      destruct (Rle_dec D (e0 l)) as [C|C]; [|exfalso; apply C; left; apply OA; unfold T0, T1; lra].
      destruct (Rlt_dec g (e3 l - PI)) as [C2|C2].
      { apply n_both' with (b00 := a0); auto; unfold T0, T1; lra. }
      destruct (Rlt_dec g (e2 l + PI)) as [C3|C3].
      { apply n_near; auto; unfold T0, T1; lra. }
      destruct (Rlt_dec g (e3 l + PI)) as [C4|C4]; [|unfold T0, T1 in *; lra].
      apply n_both; auto; unfold T0, T1; lra.
  - destruct (Rlt_dec (e3 l - e2 l) PI) as [CA|CA].
    + destruct (Rlt_dec g (e3 l)) as [C1|C1].
      { destruct (Rle_dec D (e0 l)) as [C|C]; [|exfalso; apply C; left; apply OA; unfold T0, T1; lra].
        apply n_near; auto; unfold T0, T1; lra. }
      destruct (Rlt_dec g (e2 l + PI)) as [C2|C2].
      { apply n_low with (k := 0%Z); auto; unfold T0, T1; lra. }
      destruct (Rlt_dec g (e3 l + PI)) as [C3|C3].
      { apply n_far with (b00 := a0) (k := (-1)%Z); auto; unfold T0, T1; lra. }
      apply n_up with (k := (-1)%Z); auto; unfold T0, T1; lra.
    + destruct (Rlt_dec (e3 l) g) as [C1|C1].
      { apply n_far with (b00 := a0) (k := (-1)%Z); auto; unfold T0, T1; lra. }
      destruct (Rle_dec D (e0 l)) as [C|C]; [|exfalso; apply C; left; apply OA; unfold T0, T1; lra].
      destruct (Rlt_dec g (e3 l - PI)) as [C2|C2].
      { apply n_both; auto; unfold T0, T1; lra. }
      destruct (Rlt_dec g (e2 l + PI)) as [C3|C3].
      { apply n_near; auto; unfold T0, T1; lra. }
      destruct (Rlt_dec g (e3 l + PI)) as [C4|C4]; [|unfold T0, T1 in *; lra].
      apply n_both' with (b00 := a0); auto; unfold T0, T1; lra.
Qed.

(** ** the code, for an origin outside the outer radius *)
Lemma ang_tangent D r r1 t : 0 < r1 <= D -> 0 <= r <= r1 -> 0 < D - r * cos t -> ang D r t = asin (r1 / D) -> r1 = D * cos t.
Proof.
  intros H R X E. pose proof PI_RGT_0 as P.
  assert (Q : 0 <= r1 / D <= 1).
  { split; [apply Rmult_le_pos; [lra|left; apply Rinv_0_lt_compat; lra]|]. apply (Rmult_le_reg_r D); [lra|]. field_simplify; lra. }
  assert (S : sin (asin (r1 / D)) = r1 / D) by (apply sin_asin; lra).
  assert (B : - PI / 2 < ang D r t < PI / 2) by apply atan_bound.
  assert (T : r * sin t / (D - r * cos t) = tan (ang D r t)) by (unfold ang; now rewrite tan_atan).
  rewrite E in *. set (b := asin (r1 / D)) in *.
  assert (C : 0 < cos b) by (apply cos_gt_0; lra). unfold tan in T.
  assert (F : r * sin t * cos b = sin b * (D - r * cos t)).
  { apply (Rmult_eq_compat_r (cos b * (D - r * cos t))) in T. field_simplify in T; lra. }
  assert (Eb : D * sin b = r1) by (rewrite S; field; lra).
  assert (G : r * sin (t + b) = r1) by (rewrite sin_plus; lra).
  pose proof (SIN_bound (t + b)) as Sb. assert (S1 : sin (t + b) = 1) by nra.
  assert (C0 : cos (t + b) = 0). { pose proof (sin2_cos2 (t + b)) as Z. unfold Rsqr in Z. rewrite S1 in Z. nra. }
  replace t with (t + b - b) by lra. rewrite cos_minus, C0, S1. lra.
Qed.
Definition max4 (a b c d : R) : R := upper (upper (upper a b) c) d.
Definition min4 (a b c d : R) : R := lower (lower (lower a b) c) d.
Lemma max4_ge a b c d : a <= max4 a b c d /\ b <= max4 a b c d /\ c <= max4 a b c d /\ d <= max4 a b c d.
Proof. unfold max4. rewrite !upper_max. unfold Rmax. repeat destruct (Rle_dec _ _); lra. Qed.
Lemma max4_in a b c d : let x := max4 a b c d in x = a \/ x = b \/ x = c \/ x = d.
Proof. unfold max4. rewrite !upper_max. unfold Rmax. repeat destruct (Rle_dec _ _); auto. Qed.
Lemma min4_le a b c d : min4 a b c d <= a /\ min4 a b c d <= b /\ min4 a b c d <= c /\ min4 a b c d <= d.
Proof. unfold min4. rewrite !lower_min. unfold Rmin. repeat destruct (Rle_dec _ _); lra. Qed.
Lemma min4_in a b c d : let x := min4 a b c d in x = a \/ x = b \/ x = c \/ x = d.
Proof. unfold min4. rewrite !lower_min. unfold Rmin. repeat destruct (Rle_dec _ _); auto. Qed.
Lemma max4_sub o a b c d : max4 (o - a) (o - b) (o - c) (o - d) = o - min4 a b c d.
Proof. unfold max4, min4. rewrite !upper_max, !lower_min. unfold Rmax, Rmin. repeat destruct (Rle_dec _ _); lra. Qed.
Lemma min4_sub o a b c d : min4 (o - a) (o - b) (o - c) (o - d) = o - max4 a b c d.
Proof. unfold max4, min4. rewrite !upper_max, !lower_min. unfold Rmax, Rmin. repeat destruct (Rle_dec _ _); lra. Qed.
Lemma max4_add o a b c d : max4 (o + a) (o + b) (o + c) (o + d) = o + max4 a b c d.
Proof. unfold max4. rewrite !upper_max. unfold Rmax. repeat destruct (Rle_dec _ _); lra. Qed.
Lemma min4_add o a b c d : min4 (o + a) (o + b) (o + c) (o + d) = o + min4 a b c d.
Proof. unfold min4. rewrite !lower_min. unfold Rmin. repeat destruct (Rle_dec _ _); lra. Qed.

Section Outside.
Variables D r0 r1 T0 T1 : R.
Hypothesis HD : 0 < r1 <= D.
Hypothesis Hr : 0 <= r0 <= r1.
Hypothesis HT : T0 <= T1.
Hypothesis Hx : forall r t, r0 <= r <= r1 -> T0 <= t <= T1 -> 0 < D - r * cos t.
Variables in1 in2 : bool.
Hypothesis H1 : in1 = true -> exists k, T0 <= acos (r1 / D) + 2 * PI * IZR k <= T1.
Hypothesis H1' : in1 = false -> forall k, ~ T0 <= acos (r1 / D) + 2 * PI * IZR k <= T1.
Hypothesis H2 : in2 = true -> exists k, T0 <= - acos (r1 / D) + 2 * PI * IZR k <= T1.
Hypothesis H2' : in2 = false -> forall k, ~ T0 <= - acos (r1 / D) + 2 * PI * IZR k <= T1.
Let c00 := ang D r0 T0.
Let c01 := ang D r0 T1.
Let c10 := ang D r1 T0.
Let c11 := ang D r1 T1.
Definition phi_max := if in1 then asin (r1 / D) else max4 c00 c01 c10 c11.
Definition phi_min := if in2 then - asin (r1 / D) else min4 c00 c01 c10 c11.

Lemma Hx_neg r t : r0 <= r <= r1 -> - T1 <= t <= - T0 -> 0 < D - r * cos t.
Proof. intros R T. rewrite <- cos_neg. apply Hx; lra. Qed.
Lemma not_touching k s : (s = 1 \/ s = -1) -> T0 <= s * acos (r1 / D) + 2 * PI * IZR k <= T1 -> D <> r1.
Proof.
  intros Hs T E. pose proof (Hx r1 _ ltac:(lra) T) as X. rewrite cos_shift' in X.
  assert (Q : r1 / D = 1) by (rewrite E; field; lra). rewrite Q, acos_1, Rmult_0_r, cos_0 in X. lra.
Qed.
Lemma max_bound r t : r0 <= r <= r1 -> T0 <= t <= T1 -> ang D r t <= phi_max.
Proof.
  intros R T. unfold phi_max. destruct in1.
  - apply (out_tangent D r0 r1 T0 T1); auto; lra.
  - destruct (out_corner D r0 r1 T0 T1 ltac:(lra) ltac:(lra) HT Hx r t (H1' eq_refl) R T) as (a & b & Ha & Hb & L).
    eapply Rle_trans; [exact L|]. pose proof (max4_ge c00 c01 c10 c11). unfold c00, c01, c10, c11 in *.
    destruct Ha; subst a; destruct Hb; subst b; tauto.
Qed.
Lemma min_bound r t : r0 <= r <= r1 -> T0 <= t <= T1 -> phi_min <= ang D r t.
Proof.
  intros R T. unfold phi_min. destruct in2.
  - pose proof (out_tangent D r0 r1 (- T1) (- T0) ltac:(lra) ltac:(lra) ltac:(exact Hx_neg) r (- t) R ltac:(lra)) as L. rewrite ang_neg in L. lra.
  - assert (N : forall k, ~ - T1 <= acos (r1 / D) + 2 * PI * IZR k <= - T0).
    { intros k K. apply (H2' eq_refl (- k)%Z). rewrite opp_IZR. lra. }
    destruct (out_corner D r0 r1 (- T1) (- T0) ltac:(lra) ltac:(lra) ltac:(lra) Hx_neg r (- t) N R ltac:(lra)) as (a & b & Ha & Hb & L).
    rewrite ang_neg in L. assert (L' : ang D a (- b) <= ang D r t) by (rewrite ang_neg; lra).
    eapply Rle_trans; [|exact L']. pose proof (min4_le c00 c01 c10 c11). unfold c00, c01, c10, c11 in *.
    destruct Ha; subst a; destruct Hb; subst b; rewrite Ropp_involutive; tauto.
Qed.
Lemma corner_in (f : R -> R -> R -> R -> R) : (forall a b c d, let x := f a b c d in x = a \/ x = b \/ x = c \/ x = d) ->
  exists r t, r0 <= r <= r1 /\ T0 <= t <= T1 /\ ang D r t = f c00 c01 c10 c11.
Proof.
  intros H. destruct (H c00 c01 c10 c11) as [E|[E|[E|E]]]; cbv zeta in E; rewrite E.
  - exists r0, T0. repeat split; lra.
  - exists r0, T1. repeat split; lra.
  - exists r1, T0. repeat split; lra.
  - exists r1, T1. repeat split; lra.
Qed.
Lemma max_hit : exists r t, r0 <= r <= r1 /\ T0 <= t <= T1 /\ ang D r t = phi_max.
Proof.
  unfold phi_max. destruct in1.
  - destruct (H1 eq_refl) as [k K]. exists r1, (acos (r1 / D) + 2 * PI * IZR k). split; [lra|]. split; [auto|].
    assert (N : D <> r1) by (apply (not_touching k 1); auto; lra).
    rewrite <- (tangent_at D r0 r1 ltac:(lra) ltac:(lra) N). unfold ang. now rewrite cos_shift', sin_shift'.
  - apply corner_in, max4_in.
Qed.
Lemma min_hit : exists r t, r0 <= r <= r1 /\ T0 <= t <= T1 /\ ang D r t = phi_min.
Proof.
  unfold phi_min. destruct in2.
  - destruct (H2 eq_refl) as [k K]. exists r1, (- acos (r1 / D) + 2 * PI * IZR k). split; [lra|]. split; [auto|].
    assert (N : D <> r1) by (apply (not_touching k (-1)); auto; lra).
    rewrite <- (tangent_at D r0 r1 ltac:(lra) ltac:(lra) N), <- ang_neg. unfold ang. now rewrite cos_shift', sin_shift'.
  - apply corner_in, min4_in.
Qed.
Lemma outside_range : is_range (sees D r0 r1 T0 T1) (PI - phi_max) (PI - phi_min) /\ phi_min <= phi_max /\
  - asin (r1 / D) <= phi_min /\ phi_max <= asin (r1 / D).
Proof.
  assert (TM : forall r t, r0 <= r <= r1 -> T0 <= t <= T1 -> - asin (r1 / D) <= ang D r t <= asin (r1 / D)).
  { intros r t R T. pose proof (out_tangent D r0 r1 T0 T1 ltac:(lra) ltac:(lra) Hx r t R T).
    pose proof (out_tangent D r0 r1 (- T1) (- T0) ltac:(lra) ltac:(lra) ltac:(exact Hx_neg) r (- t) R ltac:(lra)) as L. rewrite ang_neg in L. lra. }
  split; [|split; [|split]].
  - apply outer_range; auto; try lra; [|apply min_hit|apply max_hit]. intros r t R T. split; [now apply min_bound|now apply max_bound].
  - destruct max_hit as (r & t & R & T & <-). now apply min_bound.
  - destruct min_hit as (r & t & R & T & <-). now apply TM.
  - destruct max_hit as (r & t & R & T & <-). now apply TM.
Qed.
(** a corner that is not touched is seen strictly inside the tangents *)
Lemma strict_corner r t : r0 <= r <= r1 -> T0 <= t <= T1 -> r1 <> D * cos t -> - asin (r1 / D) < ang D r t < asin (r1 / D).
Proof.
  intros R T N. pose proof (out_tangent D r0 r1 T0 T1 ltac:(lra) ltac:(lra) Hx r t R T) as U.
  pose proof (out_tangent D r0 r1 (- T1) (- T0) ltac:(lra) ltac:(lra) ltac:(exact Hx_neg) r (- t) R ltac:(lra)) as L. rewrite ang_neg in L.
  split; apply Rnot_le_lt; intros C; apply N.
  - rewrite <- cos_neg. apply (ang_tangent D r r1 (- t)); [lra|lra|rewrite cos_neg; auto|rewrite ang_neg; lra].
  - apply (ang_tangent D r r1 t); [lra|lra|auto|lra].
Qed.
End Outside.

(** ** the frame of the observer *)
Definition turn_of (pl : placement) (g : R) : R := if pl_neg pl then PI - (pl_angle pl + g) else pl_angle pl + g.
Lemma frame_place pl D g0 g : point POLAR (D, g0) = unmount pl (0, 0) -> same_angle g g0 ->
  pl_x pl = - (D * cos (pl_angle pl + g)) /\ pl_y pl = - (D * sin (pl_angle pl + g)).
Proof.
  intros H [k K]. pose proof (mount_unmount pl (0, 0)) as M. rewrite <- H, point_polar in M. cbn [fst snd] in M.
  assert (C : cos g = cos g0) by (rewrite K; apply cos_shift'). assert (S : sin g = sin g0) by (rewrite K; apply sin_shift').
  unfold mount in M. cbn [fst snd] in M. rewrite cos_plus, sin_plus, C, S.
  destruct (pl_neg pl); injection M as M1 M2; lra.
Qed.
Lemma frame pl D g0 g r t rho th : point POLAR (D, g0) = unmount pl (0, 0) -> same_angle g g0 ->
  mount pl (point POLAR (r, t)) = (rho * cos th, rho * sin th) <->
  r * cos (t - g) - D = rho * cos (sg (pl_neg pl) (th - turn_of pl g)) /\ r * sin (t - g) = rho * sin (sg (pl_neg pl) (th - turn_of pl g)).
Proof.
  intros H Sg. destruct (frame_place pl D g0 g H Sg) as [X Y].
  set (A := pl_angle pl + g) in *. rewrite point_polar. unfold mount, turn_of, sg. cbn [fst snd]. rewrite X, Y. fold A.
  assert (EX : r * cos t * cos (pl_angle pl) - r * sin t * sin (pl_angle pl) + - (D * cos A) = (r * cos (t - g) - D) * cos A - r * sin (t - g) * sin A).
  { assert (E : r * cos ((t - g) + A) = r * cos (t - g) * cos A - r * sin (t - g) * sin A) by (rewrite cos_plus; ring).
    replace ((t - g) + A) with (t + pl_angle pl) in E by (unfold A; lra). rewrite cos_plus in E. lra. }
  assert (EY : r * cos t * sin (pl_angle pl) + r * sin t * cos (pl_angle pl) + - (D * sin A) = (r * cos (t - g) - D) * sin A + r * sin (t - g) * cos A).
  { assert (E : r * sin ((t - g) + A) = r * sin (t - g) * cos A + r * cos (t - g) * sin A) by (rewrite sin_plus; ring).
    replace ((t - g) + A) with (t + pl_angle pl) in E by (unfold A; lra). rewrite sin_plus in E. lra. }
  rewrite EX, EY. set (x := r * cos (t - g) - D). set (y := r * sin (t - g)).
  pose proof (sin2_cos2 A) as Q. unfold Rsqr in Q.
  assert (INV : forall u v, x * cos A - y * sin A = u -> x * sin A + y * cos A = v -> x = u * cos A + v * sin A /\ y = v * cos A - u * sin A).
  { intros u v <- <-. split.
    - replace x with (x * (sin A * sin A + cos A * cos A)) at 1 by (rewrite Q; ring). ring.
    - replace y with (y * (sin A * sin A + cos A * cos A)) at 1 by (rewrite Q; ring). ring. }
  destruct (pl_neg pl).
  - replace (- (th - (PI - A))) with (PI - (th + A)) by lra. rewrite Rtrigo_facts.cos_pi_minus, Rtrigo_facts.sin_pi_minus, cos_plus, sin_plus. split.
    + intros E. injection E as E1 E2. destruct (INV (- (rho * cos th)) (rho * sin th)) as [I1 I2]; [lra|lra|]. rewrite I1, I2. split; ring.
    + intros [-> ->]. f_equal.
      * transitivity (rho * cos th * (sin A * sin A + cos A * cos A)); [ring|rewrite Q; ring].
      * transitivity (rho * sin th * (sin A * sin A + cos A * cos A)); [ring|rewrite Q; ring].
  - rewrite cos_minus, sin_minus. split.
    + intros E. injection E as E1 E2. destruct (INV (rho * cos th) (rho * sin th)) as [I1 I2]; [lra|lra|]. rewrite I1, I2. split; ring.
    + intros [-> ->]. f_equal.
      * transitivity (rho * cos th * (sin A * sin A + cos A * cos A)); [ring|rewrite Q; ring].
      * transitivity (rho * sin th * (sin A * sin A + cos A * cos A)); [ring|rewrite Q; ring].
Qed.
Lemma area_seen pl D g0 g l th : point POLAR (D, g0) = unmount pl (0, 0) -> same_angle g g0 ->
  (exists q, area POLAR l pl q /\ direction q th) <->
  sees D (e0 l) (e1 l) (e2 l - g) (e3 l - g) (sg (pl_neg pl) (th - turn_of pl g)).
Proof.
  intros H Sg. split.
  - intros (q & (r & t & R & T & ->) & rho & P & E). exists r, (t - g). split; [auto|]. split; [lra|]. exists rho. split; [auto|].
    now apply (frame pl D g0 g r t rho th H Sg).
  - intros (r & t & R & T & rho & P & E). exists (mount pl (point POLAR (r, t + g))). split.
    + exists r, (t + g). repeat split; lra.
    + exists rho. split; [auto|]. apply (frame pl D g0 g r (t + g) rho th H Sg). now replace (t + g - g) with t by lra.
Qed.
Lemma area_origin pl D g0 g l r t : point POLAR (D, g0) = unmount pl (0, 0) -> same_angle g g0 -> ~ area POLAR l pl (0, 0) ->
  e0 l <= r <= e1 l -> e2 l - g <= t <= e3 l - g -> ~ (r * cos t - D = 0 /\ r * sin t = 0).
Proof.
  intros H Sg N R T [X Y]. apply N. exists r, (t + g). split; [auto|]. split; [lra|]. symmetry.
  replace (0, 0) with (0 * cos 0, 0 * sin 0) by (f_equal; ring). apply (frame pl D g0 g r (t + g) 0 0 H Sg).
  replace (t + g - g) with t by lra. lra.
Qed.
Lemma grazing pl D g0 g l t : point POLAR (D, g0) = unmount pl (0, 0) -> same_angle g g0 -> ~ grazes_corner l pl ->
  t = e2 l \/ t = e3 l -> e1 l * (e1 l - D * cos (t - g)) <> 0.
Proof.
  intros H Sg N T Z. apply N. exists t. split; [auto|]. destruct (frame_place pl D g0 g H Sg) as [X Y].
  rewrite point_polar. unfold mount. cbn [fst snd]. rewrite X, Y. set (a := pl_angle pl) in *.
  assert (E : e1 l * cos t * (e1 l * cos t) + e1 l * sin t * (e1 l * sin t) = e1 l * e1 l).
  { pose proof (sin2_cos2 t) as Q. unfold Rsqr in Q. transitivity (e1 l * e1 l * (sin t * sin t + cos t * cos t)); [ring|rewrite Q; ring]. }
  assert (Q := sin2_cos2 a). unfold Rsqr in Q.
  assert (G : (e1 l * cos t * cos a - e1 l * sin t * sin a + - (D * cos (a + g))) * (e1 l * cos t * cos a - e1 l * sin t * sin a)
            + (e1 l * cos t * sin a + e1 l * sin t * cos a + - (D * sin (a + g))) * (e1 l * cos t * sin a + e1 l * sin t * cos a) = e1 l * (e1 l - D * cos (t - g))).
  { rewrite cos_plus, sin_plus, cos_minus.
    transitivity ((e1 l * cos t * (e1 l * cos t) + e1 l * sin t * (e1 l * sin t)) * (sin a * sin a + cos a * cos a)
                  - e1 l * D * (cos t * cos g + sin t * sin g) * (sin a * sin a + cos a * cos a)); [ring|rewrite Q, E; ring]. }
  destruct (pl_neg pl); rewrite Z in G; cbn [fst snd]; lra.
Qed.

Lemma outside_positive D r t : 0 < D -> 0 <= r <= D -> ~ (r * cos t - D = 0 /\ r * sin t = 0) -> 0 < D - r * cos t.
Proof.
  intros HD R N. pose proof (COS_bound t) as C.
  assert (L : r * cos t <= r * 1) by (apply Rmult_le_compat_l; lra).
  destruct (Req_dec (D - r * cos t) 0) as [Z|Z]; [|lra]. exfalso. apply N. split; [lra|].
  assert (r = D) by lra. subst r. assert (E : cos t = 1) by (apply (Rmult_eq_reg_l D); lra).
  pose proof (sin2_cos2 t) as S. unfold Rsqr in S. rewrite E in S. assert (sin t = 0) by nra. rewrite H. ring.
Qed.
Lemma centre_seen D rho th : 0 < D -> 0 <= rho -> - D = rho * cos th -> 0 = rho * sin th -> rho = D /\ cos th = -1 /\ sin th = 0.
Proof.
  intros HD R V1 V2. assert (rho <> 0) by (intros ->; lra). assert (Z : sin th = 0) by (apply (Rmult_eq_reg_l rho); lra).
  pose proof (sin2_cos2 th) as S. unfold Rsqr in S. rewrite Z in S.
  assert (C : cos th < 0) by (apply Rnot_le_lt; intros C; assert (0 <= rho * cos th) by (apply Rmult_le_pos; lra); lra).
  assert (C' : cos th = -1) by nra. rewrite C' in V1. split; [lra|auto].
Qed.
Lemma contact D r1 s : 0 < r1 <= D -> s = 1 \/ s = -1 ->
  r1 * cos (s * acos (r1 / D)) - D = - (sqrt (D * D - r1 * r1) * cos (s * asin (r1 / D))) /\
  r1 * sin (s * acos (r1 / D)) = sqrt (D * D - r1 * r1) * sin (s * asin (r1 / D)).
Proof.
  intros H Hs.
  assert (Q : 0 < r1 / D <= 1).
  { split; [apply Rdiv_lt_0_compat; lra|]. apply (Rmult_le_reg_r D); [lra|]. field_simplify; lra. }
  assert (QQ : 0 <= 1 - (r1 / D)²) by (unfold Rsqr; nra).
  assert (RR : sqrt (D * D - r1 * r1) = D * sqrt (1 - (r1 / D)²)).
  { replace (D * D - r1 * r1) with (D² * (1 - (r1 / D)²)) by (unfold Rsqr; field; lra).
    rewrite sqrt_mult; [now rewrite sqrt_Rsqr by lra|apply Rle_0_sqr|auto]. }
  assert (SS : sqrt (1 - (r1 / D)²) * sqrt (1 - (r1 / D)²) = 1 - (r1 / D) * (r1 / D)) by (now rewrite sqrt_sqrt).
  assert (Hc : cos (s * acos (r1 / D)) = r1 / D /\ sin (s * acos (r1 / D)) = s * sqrt (1 - (r1 / D)²)).
  { assert (C := cos_acos (r1 / D) ltac:(lra)). assert (S := sin_acos (r1 / D) ltac:(lra)).
    destruct Hs; subst s; [rewrite !Rmult_1_l; auto|]. replace (-1 * acos (r1 / D)) with (- acos (r1 / D)) by lra. rewrite cos_neg, sin_neg. lra. }
  assert (Hb : sin (s * asin (r1 / D)) = s * (r1 / D) /\ cos (s * asin (r1 / D)) = sqrt (1 - (r1 / D)²)).
  { assert (S := sin_asin (r1 / D) ltac:(lra)). assert (C := cos_asin (r1 / D) ltac:(lra)).
    destruct Hs; subst s; [rewrite !Rmult_1_l; auto|]. replace (-1 * asin (r1 / D)) with (- asin (r1 / D)) by lra. rewrite cos_neg, sin_neg. lra. }
  destruct Hc as [-> ->]. destruct Hb as [-> ->]. rewrite RR. clear RR QQ. set (w := sqrt (1 - (r1 / D)²)) in *.
  split; [|field; lra]. replace (D * w * w) with (D * (w * w)) by ring. rewrite SS. field. lra.
Qed.

Lemma offset_angles : forall id p h m l e, made p POLAR id h m -> lay_type p = POLAR -> pl_x (asked POLAR h) <> 0 ->
  sane_extent POLAR l -> ~ area POLAR l (asked POLAR h) (0, 0) -> ~ grazes_corner l (asked POLAR h) -> extent_pp m l = Ok e ->
  is_angle_range (area POLAR l (asked POLAR h)) (e2 e) (e3 e).
Proof.
  intros id p h m l e M TP X Sl NA NG E. pose proof PI_RGT_0 as P.
  assert (Off : last_offset h <> (0, 0)).
  { intros O. apply X. unfold asked. cbn [pl_x]. rewrite O, point_polar. cbn. ring. }
  assert (Ss : side_settled p POLAR h) by (right; intros (_ & _ & O); contradiction).
  assert (Sy : not_on_y_axis p POLAR h) by (intros _ _ Z; contradiction).
  assert (Hz : Rltb 0 (m_z m) = negb (pl_neg (asked POLAR h))).
  { rewrite Rltb_Rleb, (md_neg _ _ _ _ _ M). reflexivity. }
  set (pl := asked POLAR h) in *.
  assert (LF : m_lig m = false).
  { destruct (m_lig m) eqn:L; [|reflexivity]. rewrite (md_lig _ _ _ _ _ M) in L.
    rewrite !andb_true_iff, !Reqb_true in L. exfalso. apply Off. destruct (last_offset h); cbn in L. destruct L as [[[_ L0] L1] _]. congruence. }
  assert (OC : m_offc0 m = pl_x pl).
  { pose proof (md_offc _ _ _ _ _ M) as Z. unfold pl, asked. cbn [pl_x]. rewrite <- Z. reflexivity. }
  unfold extent_pp in E. destruct (Reqb_spec (m_off0 m) 0) as [O0|O0].
  { exfalso. apply X. rewrite <- OC. pose proof (md_offc _ _ _ _ _ M) as Z. pose proof (md_off _ _ _ _ _ M) as Z'.
    rewrite <- Z', point_polar in Z. cbn [fst snd] in Z. injection Z as Z1 Z2. rewrite Z1, O0. ring. }
  assert (G2L : forall c0 c1, exists o, globalToLocal m c0 c1 = Ok o /\ point POLAR o = unmount pl (point POLAR (c0, c1)) /\ 0 <= fst o /\ 0 <= snd o < 2 * PI).
  { intros c0 c1. destruct (globalToLocal_made p POLAR id h m c0 c1 (or_intror eq_refl) M Ss Sy) as (o & Eo & Po). fold pl in Po. rewrite TP in Po.
    exists o. split; [exact Eo|]. split; [exact Po|].
    unfold globalToLocal in Eo. rewrite LF, (md_type _ _ _ _ _ M), (md_layout _ _ _ _ _ M), TP, OC in Eo.
    cbn [Z.eqb POLAR Pos.eqb andb] in Eo. destruct (Reqb_spec (pl_x pl) 0); [contradiction|]. cbn [andb] in Eo.
    injection Eo as <-. cbn [fst snd]. split; [apply sqrt_pos|]. apply polar_back_range. }
  assert (L2G : forall c0 c1, exists a, localToGlobal m c0 c1 = Ok a /\ point POLAR a = mount pl (point POLAR (c0, c1)) /\ 0 <= fst a /\ 0 <= snd a < 2 * PI).
  { intros c0 c1. destruct (localToGlobal_made p POLAR id h m c0 c1 (or_intror eq_refl) M Ss) as (a & Ea & Pa). fold pl in Pa. rewrite TP in Pa.
    exists a. split; [exact Ea|]. split; [exact Pa|].
    unfold localToGlobal in Ea. rewrite LF, (md_type _ _ _ _ _ M), (md_layout _ _ _ _ _ M), TP, OC in Ea.
    cbn [Z.eqb POLAR Pos.eqb andb] in Ea. destruct (Reqb_spec (pl_x pl) 0); [contradiction|]. cbn [andb] in Ea.
    injection Ea as <-. cbn [fst snd]. split; [apply sqrt_pos|]. apply polar_back_range. }
  destruct (G2L 0 0) as ([D g0] & Eo & Po & D0 & Bg). cbn [fst snd] in D0, Bg.
  rewrite (point_polar (0, 0)) in Po. cbn [fst snd] in Po. rewrite !Rmult_0_l in Po.
  assert (HD : 0 < D).
  { destruct (frame_place pl D g0 g0 Po (same_refl _)) as [Z _]. destruct (Req_dec D 0) as [->|]; [rewrite Rmult_0_l in Z; lra|lra]. }
  assert (FR := fun g r t rho th => frame pl D g0 g r t rho th Po).
  (* the corners *)
  assert (CO : forall r t g, same_angle g g0 -> exists a, localToGlobal m r t = Ok a /\ 0 <= fst a /\ 0 <= snd a < 2 * PI /\
     r * cos (t - g) - D = fst a * cos (sg (pl_neg pl) (snd a - turn_of pl g)) /\
     r * sin (t - g) = fst a * sin (sg (pl_neg pl) (snd a - turn_of pl g))).
  { intros r t g Sg. destruct (L2G r t) as (a & Ea & Pa & A0 & A1). exists a. split; [exact Ea|]. split; [exact A0|]. split; [exact A1|].
    apply (FR g r t (fst a) (snd a) Sg). rewrite <- Pa. apply point_polar. }
  assert (CD : forall g a r t, ~ (r * cos (t - g) - D = 0 /\ r * sin (t - g) = 0) -> 0 <= fst a ->
     r * cos (t - g) - D = fst a * cos (sg (pl_neg pl) (snd a - turn_of pl g)) /\
     r * sin (t - g) = fst a * sin (sg (pl_neg pl) (snd a - turn_of pl g)) ->
     dir_of (r * cos (t - g) - D) (r * sin (t - g)) (sg (pl_neg pl) (snd a - turn_of pl g))).
  { intros g a r t N A0 [E1 E2]. exists (fst a). split; [|auto]. destruct (Req_dec (fst a) 0) as [Z|Z]; [|lra].
    exfalso. apply N. rewrite E1, E2, Z. split; ring. }
  rewrite Eo in E. cbn [rbind fst snd] in E.
  destruct Sl as (Sl1 & Sl2 & Sl3). destruct (Sl3 eq_refl) as [Sl4 Sl5]. assert (Sl : sane_extent POLAR l) by (split; [|split]; auto).
  unfold Rleb in E at 1. destruct (Rle_dec (e1 l) D) as [OUT|INS].
  - (* outside *)
    assert (NO := fun r t => area_origin pl D g0 g0 l r t Po (same_refl _) NA).
    destruct (CO (e0 l) (e2 l) g0 (same_refl _)) as (a & Ea & Fa & Ra & Va). destruct (CO (e0 l) (e3 l) g0 (same_refl _)) as (b & Eb & Fb & Rb & Vb).
    destruct (CO (e1 l) (e2 l) g0 (same_refl _)) as (c & Ec & Fc & Rc & Vc). destruct (CO (e1 l) (e3 l) g0 (same_refl _)) as (d & Ed & Fd & Rd & Vd).
    rewrite Ea, Eb, Ec, Ed in E. cbn [rbind] in E.
    apply CD in Va, Vb, Vc, Vd; auto; try (apply NO; lra).
    set (G := turn_of pl g0) in *. set (neg := pl_neg pl) in *.
    assert (N2 := grazing pl D g0 g0 l (e2 l) Po (same_refl _) NG (or_introl eq_refl)).
    assert (N3 := grazing pl D g0 g0 l (e3 l) Po (same_refl _) NG (or_intror eq_refl)).
    assert (R1 : 0 < e1 l <= D). { split; [|auto]. destruct (Req_dec (e1 l) 0) as [Z|Z]; [rewrite Z in N2; lra|lra]. }
    assert (Q2 : e1 l <> D * cos (e2 l - g0)) by (intros Z; apply N2; rewrite <- Z; ring).
    assert (Q3 : e1 l <> D * cos (e3 l - g0)) by (intros Z; apply N3; rewrite <- Z; ring).
    set (T0 := e2 l - g0) in *. set (T1 := e3 l - g0) in *. assert (TT : T0 <= T1) by (unfold T0, T1; lra).
    assert (Hx : forall r t, e0 l <= r <= e1 l -> T0 <= t <= T1 -> 0 < D - r * cos t).
    { intros r t R T. apply outside_positive; [auto|lra|]. now apply NO. }
    unfold pp_phi_outside in E. cbn [fst snd] in E. destruct (Reqb_spec D 0) as [|_]; [lra|].
    destruct (CO 0 0 g0 (same_refl _)) as (og & Eog & Fog & Rog & Vog). fold G neg in Vog. rewrite Eog in E. cbn [rbind] in E.
    (* the centre is seen at distance D, in the middle between the tangents *)
    assert (OG : fst og = D /\ cos (sg neg (snd og - G)) = -1 /\ sin (sg neg (snd og - G)) = 0).
    { destruct Vog as [V1 V2]. rewrite !Rmult_0_l in V1, V2. apply centre_seen; auto; lra. }
    destruct OG as (OG1 & OG2 & OG3). rewrite OG1 in E.
    assert (OGs : same_angle (sg neg (snd og - G)) PI).
    { destruct (dir_turn (-1) 0 PI (sg neg (snd og - G))) as [k K]; [exists 1; rewrite cos_PI, sin_PI; lra|exists 1; rewrite OG2, OG3; lra|exists k; exact K]. }
    set (be := asin (e1 l / D)) in *. set (tau := acos (e1 l / D)).
    set (tmin := snd og - be) in *. set (tmax := snd og + be) in *. set (rr := sqrt (D * D - e1 l * e1 l)) in *.
    assert (Qd : 0 <= e1 l / D <= 1).
    { split; [apply Rmult_le_pos; [lra|left; apply Rinv_0_lt_compat; lra]|]. apply (Rmult_le_reg_r D); [lra|]. field_simplify; lra. }
    assert (BE : 0 < be <= PI / 2).
    { pose proof (asin_bound (e1 l / D)) as B. fold be in B. split; [|lra]. apply Rnot_le_lt. intros L.
      assert (0 < e1 l / D) by (apply Rdiv_lt_0_compat; lra).
      assert (S : sin be = e1 l / D) by (apply sin_asin; lra). pose proof (sin_ge_0 (- be) ltac:(lra) ltac:(lra)) as Z. rewrite sin_neg in Z. lra. }
    (* the points of contact *)
    assert (TAN : forall s, (s = 1 \/ s = -1) -> mount pl (point POLAR (e1 l, g0 + s * tau)) = (rr * cos (snd og - sg neg (s * be)), rr * sin (snd og - sg neg (s * be)))).
    { intros s Hs. apply (FR g0 (e1 l) (g0 + s * tau) rr (snd og - sg neg (s * be)) (same_refl _)). fold G neg.
      replace (g0 + s * tau - g0) with (s * tau) by lra.
      replace (sg neg (snd og - sg neg (s * be) - G)) with (sg neg (snd og - G) - s * be) by (unfold sg; destruct neg; lra).
      rewrite cos_minus, sin_minus, OG2, OG3.
      destruct (contact D (e1 l) s R1 Hs) as [K1 K2]. fold tau be rr in K1, K2. rewrite K1, K2. split; ring. }
    assert (TIN : forall s th t, (s = 1 \/ s = -1) -> th = snd og - sg neg (s * be) -> globalToLocal m rr th = Ok t ->
       let w := wrap_down (e2 l + 2 * PI) (wrap_up (e2 l) (snd t)) in
       (Rltb w (e3 l) = true -> exists k, T0 <= s * tau + 2 * PI * IZR k <= T1) /\
       (Rltb w (e3 l) = false -> forall k, ~ T0 <= s * tau + 2 * PI * IZR k <= T1)).
    { intros s th t Hs Eth Et w. destruct (G2L rr th) as (t' & Et' & Pt & F1 & F2). rewrite Et in Et'. injection Et' as <-.
      rewrite (point_polar (rr, th)) in Pt. cbn [fst snd] in Pt. rewrite Eth, <- (TAN s Hs), unmount_mount in Pt.
      destruct t as [tr tp]. cbn [fst snd] in *.
      destruct (polar_same tr tp (e1 l) (g0 + s * tau) F1 ltac:(lra) Pt) as (_ & C1 & C2).
      destruct (dir_turn (cos tp) (sin tp) (g0 + s * tau) tp) as [k K]; [exists 1; rewrite C1, C2; lra|exists 1; lra|].
      destruct (wrap_same (e2 l) (e2 l + 2 * PI) tp) as [j J]. fold w in J.
      pose proof (wrap_window (e2 l) (e2 l + 2 * PI) tp ltac:(lra)) as W. fold w in W.
      unfold Rltb. destruct (Rlt_dec w (e3 l)) as [L|L]; (split; [intros Z|intros Z]; try discriminate).
      - exists (k + j)%Z. rewrite plus_IZR. unfold T0, T1. lra.
      - intros i [I1 I2].
        assert (CT : cos (s * tau + 2 * PI * IZR i) = e1 l / D).
        { rewrite cos_shift'. destruct Hs; subst s; [rewrite Rmult_1_l|replace (-1 * tau) with (- tau) by lra; rewrite cos_neg]; apply cos_acos; lra. }
        assert (CT' : e1 l = D * cos (s * tau + 2 * PI * IZR i)) by (rewrite CT; field; lra).
        assert (J1 : T0 <> s * tau + 2 * PI * IZR i) by (intros Z1; apply Q2; rewrite Z1; exact CT').
        assert (J2 : T1 <> s * tau + 2 * PI * IZR i) by (intros Z1; apply Q3; rewrite Z1; exact CT').
        assert (SN : w = g0 + s * tau + 2 * PI * IZR i).
        { apply same_near; [exists (k + j - i)%Z; rewrite minus_IZR, plus_IZR; lra|]. unfold T0, T1 in *. lra. }
        unfold T1 in *. lra. }
    destruct (G2L rr (if negb neg then tmin else tmax)) as (t1 & Et1 & _). destruct (G2L rr (if negb neg then tmax else tmin)) as (t2 & Et2 & _).
    rewrite Hz in E. fold neg in E. rewrite Et1, Et2 in E. cbn [rbind] in E.
    destruct (TIN 1 (if negb neg then tmin else tmax) t1 (or_introl eq_refl) ltac:(unfold sg, tmin, tmax; destruct neg; cbn [negb]; lra) Et1) as [I1 I1'].
    destruct (TIN (-1) (if negb neg then tmax else tmin) t2 (or_intror eq_refl) ltac:(unfold sg, tmin, tmax; destruct neg; cbn [negb]; lra) Et2) as [I2 I2'].
    set (in1 := Rltb (wrap_down (e2 l + 2 * PI) (wrap_up (e2 l) (snd t1))) (e3 l)) in *.
    set (in2 := Rltb (wrap_down (e2 l + 2 * PI) (wrap_up (e2 l) (snd t2))) (e3 l)) in *.
    rewrite Rmult_1_l in I1, I1'. replace (-1 * tau) with (- tau) in I2, I2' by lra.
    destruct (outside_range D (e0 l) (e1 l) T0 T1 R1 ltac:(lra) TT Hx in1 in2 I1 I1' I2 I2') as (RG & RO & RL & RU). fold be in RL, RU.
    (* the corners, between the tangents *)
    assert (W : forall (x : R * R) (r t : R), e0 l <= r <= e1 l -> (t = T0 \/ t = T1) -> dir_of (r * cos t - D) (r * sin t) (sg neg (snd x - G)) ->
        wrap_down (tmin + 2 * PI) (wrap_up tmin (snd x)) = snd og - sg neg (ang D r t)).
    { intros x r t R T Dx. assert (Tt : T0 <= t <= T1) by (destruct T; subst t; lra).
      destruct (dir_turn _ _ _ _ (ang_dir D r t (Hx r t R Tt)) Dx) as [k K].
      pose proof (strict_corner D (e0 l) (e1 l) T0 T1 R1 ltac:(lra) Hx r t R Tt ltac:(destruct T; subst t; auto)) as SC. fold be in SC.
      pose proof (wrap_window tmin (tmin + 2 * PI) (snd x) ltac:(lra)) as WW. destruct (wrap_same tmin (tmin + 2 * PI) (snd x)) as [j J].
      destruct OGs as [i I]. apply same_near.
      - exists (if neg then (i - k + j)%Z else (k - i + j)%Z). destruct neg; unfold sg in *; rewrite plus_IZR, minus_IZR; lra.
      - unfold sg in *. unfold tmin in *. destruct neg; lra. }
    rewrite (W a (e0 l) T0 ltac:(lra) (or_introl eq_refl) Va), (W b (e0 l) T1 ltac:(lra) (or_intror eq_refl) Vb),
            (W c (e1 l) T0 ltac:(lra) (or_introl eq_refl) Vc), (W d (e1 l) T1 ltac:(lra) (or_intror eq_refl) Vd) in E.
    fold (min4 (snd og - sg neg (ang D (e0 l) T0)) (snd og - sg neg (ang D (e0 l) T1)) (snd og - sg neg (ang D (e1 l) T0)) (snd og - sg neg (ang D (e1 l) T1))) in E.
    fold (max4 (snd og - sg neg (ang D (e0 l) T0)) (snd og - sg neg (ang D (e0 l) T1)) (snd og - sg neg (ang D (e1 l) T0)) (snd og - sg neg (ang D (e1 l) T1))) in E.
    rewrite min4_sub, max4_sub in E.
    assert (GOAL : forall lo hi, lo <= hi <= lo + 2 * PI -> is_range (fun th => sees D (e0 l) (e1 l) T0 T1 (sg neg (th - G))) lo hi ->
              is_angle_range (area POLAR l pl) lo hi).
    { intros lo hi B H. split; [exact B|]. intros th. rewrite (area_seen pl D g0 g0 l th Po (same_refl _)). apply (H th). }
    cbn [rmap] in E. injection E as <-. cbn [e2 e3]. destruct OGs as [i I].
    unfold phi_max, phi_min in RG, RO, RL, RU. fold be in RG, RO.
    destruct neg; cbn [negb fst snd]; unfold sg in *; apply GOAL.
    + assert (ML : max4 (- ang D (e0 l) T0) (- ang D (e0 l) T1) (- ang D (e1 l) T0) (- ang D (e1 l) T1) = - min4 (ang D (e0 l) T0) (ang D (e0 l) T1) (ang D (e1 l) T0) (ang D (e1 l) T1)).
      { pose proof (max4_sub 0 (ang D (e0 l) T0) (ang D (e0 l) T1) (ang D (e1 l) T0) (ang D (e1 l) T1)) as Z. rewrite !Rminus_0_l in Z. exact Z. }
      assert (MU : min4 (- ang D (e0 l) T0) (- ang D (e0 l) T1) (- ang D (e1 l) T0) (- ang D (e1 l) T1) = - max4 (ang D (e0 l) T0) (ang D (e0 l) T1) (ang D (e1 l) T0) (ang D (e1 l) T1)).
      { pose proof (min4_sub 0 (ang D (e0 l) T0) (ang D (e0 l) T1) (ang D (e1 l) T0) (ang D (e1 l) T1)) as Z. rewrite !Rminus_0_l in Z. exact Z. }
      rewrite ML, MU. unfold tmin, tmax. destruct in1, in2; lra.
    + assert (ML : max4 (- ang D (e0 l) T0) (- ang D (e0 l) T1) (- ang D (e1 l) T0) (- ang D (e1 l) T1) = - min4 (ang D (e0 l) T0) (ang D (e0 l) T1) (ang D (e1 l) T0) (ang D (e1 l) T1)).
      { pose proof (max4_sub 0 (ang D (e0 l) T0) (ang D (e0 l) T1) (ang D (e1 l) T0) (ang D (e1 l) T1)) as Z. rewrite !Rminus_0_l in Z. exact Z. }
      assert (MU : min4 (- ang D (e0 l) T0) (- ang D (e0 l) T1) (- ang D (e1 l) T0) (- ang D (e1 l) T1) = - max4 (ang D (e0 l) T0) (ang D (e0 l) T1) (ang D (e1 l) T0) (ang D (e1 l) T1)).
      { pose proof (min4_sub 0 (ang D (e0 l) T0) (ang D (e0 l) T1) (ang D (e1 l) T0) (ang D (e1 l) T1)) as Z. rewrite !Rminus_0_l in Z. exact Z. }
      rewrite ML, MU. apply range_neg in RG. apply (range_rotate _ _ _ G) in RG. apply (range_shift _ _ _ (- i)%Z) in RG. rewrite opp_IZR in RG.
      unfold tmin, tmax. destruct in1, in2; match type of RG with is_range _ ?u ?v => match goal with |- is_range _ ?u' ?v' => replace u' with u by lra; replace v' with v by lra; exact RG end end.
    + unfold tmin, tmax. destruct in1, in2; lra.
    + apply (range_rotate _ _ _ G) in RG. apply (range_shift _ _ _ i) in RG.
      unfold tmin, tmax. destruct in1, in2; match type of RG with is_range _ ?u ?v => match goal with |- is_range _ ?u' ?v' => replace u' with u by lra; replace v' with v by lra; exact RG end end.
  - (* inside *)
    apply Rnot_le_lt in INS. set (g := wrap_down (e2 l + 2 * PI) (wrap_up (e2 l) g0)) in *.
    assert (Sg : same_angle g g0) by apply wrap_same.
    assert (NO := fun r t => area_origin pl D g0 g l r t Po Sg NA).
    destruct (CO (e0 l) (e2 l) g Sg) as (a & Ea & Fa & Ra & Va). destruct (CO (e0 l) (e3 l) g Sg) as (b & Eb & Fb & Rb & Vb).
    destruct (CO (e1 l) (e2 l) g Sg) as (c & Ec & Fc & Rc & Vc). destruct (CO (e1 l) (e3 l) g Sg) as (d & Ed & Fd & Rd & Vd).
    rewrite Ea, Eb, Ec, Ed in E. cbn [rbind rmap] in E. injection E as <-. cbn [e2 e3].
    apply CD in Va, Vb, Vc, Vd; auto; try (apply NO; lra).
    destruct (phi_inside_good m l (D, g0) (snd a) (snd b) (snd c) (snd d) (turn_of pl g) (pl_neg pl) Sl ltac:(cbn [fst]; lra) Hz Ra Rb Rc Rd Va Vb Vc Vd NO) as [GB GR].
    split; [exact GB|]. intros th. rewrite (area_seen pl D g0 g l th Po Sg). apply (GR th).
Qed.
