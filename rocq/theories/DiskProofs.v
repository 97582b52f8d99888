(** Facts shared by the polar layouts: the wrapping loops, the index coding, the distance to a keystone. *)
From Coq Require Import ZArith List Bool Reals Lra Lia.
From Flocq Require Import Core.Raux.
From Verif Require Import Base RBase BitProofs DiskBase FpsModel FpaModel VdModel DiskSpec.
From Verif Require RectSpec RectProofs2 RectProofs3 RectProofs4 RectProofs5.
Import ListNotations.
Open Scope R_scope.

Lemma PI2_pos : 0 < 2 * PI. Proof. pose proof PI_RGT_0; lra. Qed.
Lemma PI_big : 3 < PI. Proof. pose proof PI2_3_2. unfold PI2 in *. lra. Qed.

(** ** wrapping *)
Lemma zmax_ceil : forall x n, (0 < n)%Z -> IZR n - 1 < x <= IZR n -> Z.max 0 (Zceil x) = n.
Proof. intros. rewrite (RectProofs4.Zceil_val x n); lia || lra. Qed.
Lemma zmax_ceil0 : forall x, x <= 0 -> Z.max 0 (Zceil x) = 0%Z.
Proof.
  intros. pose proof (RectProofs3.Zceil_bounds x). apply Z.max_l.
  assert (IZR (Zceil x) < IZR 1) by lra. apply lt_IZR in H1. lia.
Qed.

Lemma wrap_up_id : forall lo phi, lo <= phi -> wrap_up lo phi = phi.
Proof.
  intros. unfold wrap_up. rewrite zmax_ceil0; [lra|]. pose proof PI2_pos.
  apply Rmult_le_reg_r with (2 * PI); auto. unfold Rdiv. rewrite Rmult_assoc, Rinv_l; lra.
Qed.
Lemma wrap_down_id : forall hi phi, phi <= hi -> wrap_down hi phi = phi.
Proof.
  intros. unfold wrap_down. rewrite zmax_ceil0; [lra|]. pose proof PI2_pos.
  apply Rmult_le_reg_r with (2 * PI); auto. unfold Rdiv. rewrite Rmult_assoc, Rinv_l; lra.
Qed.
Lemma wrap_up_step : forall lo phi, phi < lo -> wrap_up lo phi = wrap_up lo (phi + 2 * PI).
Proof.
  intros. pose proof PI2_pos. unfold wrap_up.
  set (x := (lo - phi) / (2 * PI)).
  replace ((lo - (phi + 2 * PI)) / (2 * PI)) with (x - 1) by (unfold x; field; lra).
  assert (Hx : 0 < x) by (apply Rdiv_lt_0_compat; lra).
  pose proof (RectProofs3.Zceil_bounds x) as Hc.
  assert (Hz : (0 < Zceil x)%Z) by (apply lt_IZR; simpl; lra).
  rewrite (Z.max_r 0 (Zceil x)) by lia.
  replace (Z.max 0 (Zceil (x - 1))) with (Zceil x - 1)%Z.
  - rewrite minus_IZR. lra.
  - destruct (Z.eq_dec (Zceil x) 1) as [E|E].
    + rewrite E. rewrite zmax_ceil0; [lia|]. rewrite E in Hc. simpl in Hc. lra.
    + rewrite (zmax_ceil (x - 1) (Zceil x - 1)); auto; [lia|]. rewrite minus_IZR. lra.
Qed.
Lemma wrap_down_step : forall hi phi, hi < phi -> wrap_down hi phi = wrap_down hi (phi - 2 * PI).
Proof.
  intros. pose proof PI2_pos. unfold wrap_down.
  set (x := (phi - hi) / (2 * PI)).
  replace ((phi - 2 * PI - hi) / (2 * PI)) with (x - 1) by (unfold x; field; lra).
  assert (Hx : 0 < x) by (apply Rdiv_lt_0_compat; lra).
  pose proof (RectProofs3.Zceil_bounds x) as Hc.
  assert (Hz : (0 < Zceil x)%Z) by (apply lt_IZR; simpl; lra).
  rewrite (Z.max_r 0 (Zceil x)) by lia.
  replace (Z.max 0 (Zceil (x - 1))) with (Zceil x - 1)%Z.
  - rewrite minus_IZR. lra.
  - destruct (Z.eq_dec (Zceil x) 1) as [E|E].
    + rewrite E. rewrite zmax_ceil0; [lia|]. rewrite E in Hc. simpl in Hc. lra.
    + rewrite (zmax_ceil (x - 1) (Zceil x - 1)); auto; [lia|]. rewrite minus_IZR. lra.
Qed.

(** every long enough run of the loop ends with the closed form *)
Lemma loop_up_result : forall lo phi, exists n, forall fuel, (n <= fuel)%nat ->
  loop_up fuel lo phi = Some (wrap_up lo phi).
Proof.
  intros lo phi. exists (Z.to_nat (Z.max 0 (Zceil ((lo - phi) / (2 * PI))))).
  intros fuel; revert phi. induction fuel as [|f IH]; intros phi Hn; simpl; rcase.
  - exfalso. pose proof PI2_pos.
    assert (0 < (lo - phi) / (2 * PI)) by (apply Rdiv_lt_0_compat; lra).
    pose proof (RectProofs3.Zceil_bounds ((lo - phi) / (2 * PI))).
    assert (0 < Zceil ((lo - phi) / (2 * PI)))%Z by (apply lt_IZR; simpl; lra). lia.
  - now rewrite wrap_up_id.
  - rewrite wrap_up_step by auto. apply IH.
    pose proof PI2_pos.
    assert (Hx : 0 < (lo - phi) / (2 * PI)) by (apply Rdiv_lt_0_compat; lra).
    pose proof (RectProofs3.Zceil_bounds ((lo - phi) / (2 * PI))) as B1.
    replace ((lo - (phi + 2 * PI)) / (2 * PI)) with ((lo - phi) / (2 * PI) - 1) by (field; lra).
    pose proof (RectProofs3.Zceil_bounds ((lo - phi) / (2 * PI) - 1)) as B2.
    assert (IZR (Zceil ((lo - phi) / (2 * PI) - 1)) < IZR (Zceil ((lo - phi) / (2 * PI)))) as B3 by lra.
    apply lt_IZR in B3.
    assert (0 < Zceil ((lo - phi) / (2 * PI)))%Z by (apply lt_IZR; simpl; lra). lia.
  - now rewrite wrap_up_id.
Qed.
Lemma loop_down_result : forall hi phi, exists n, forall fuel, (n <= fuel)%nat ->
  loop_down fuel hi phi = Some (wrap_down hi phi).
Proof.
  intros hi phi. exists (Z.to_nat (Z.max 0 (Zceil ((phi - hi) / (2 * PI))))).
  intros fuel; revert phi. induction fuel as [|f IH]; intros phi Hn; simpl; rcase.
  - exfalso. pose proof PI2_pos.
    assert (0 < (phi - hi) / (2 * PI)) by (apply Rdiv_lt_0_compat; lra).
    pose proof (RectProofs3.Zceil_bounds ((phi - hi) / (2 * PI))).
    assert (0 < Zceil ((phi - hi) / (2 * PI)))%Z by (apply lt_IZR; simpl; lra). lia.
  - now rewrite wrap_down_id.
  - rewrite wrap_down_step by auto. apply IH.
    pose proof PI2_pos.
    assert (Hx : 0 < (phi - hi) / (2 * PI)) by (apply Rdiv_lt_0_compat; lra).
    pose proof (RectProofs3.Zceil_bounds ((phi - hi) / (2 * PI))) as B1.
    replace ((phi - 2 * PI - hi) / (2 * PI)) with ((phi - hi) / (2 * PI) - 1) by (field; lra).
    pose proof (RectProofs3.Zceil_bounds ((phi - hi) / (2 * PI) - 1)) as B2.
    assert (IZR (Zceil ((phi - hi) / (2 * PI) - 1)) < IZR (Zceil ((phi - hi) / (2 * PI)))) as B3 by lra.
    apply lt_IZR in B3.
    assert (0 < Zceil ((phi - hi) / (2 * PI)))%Z by (apply lt_IZR; simpl; lra). lia.
  - now rewrite wrap_down_id.
Qed.

Lemma wrap_up_bounds : forall lo phi, lo <= wrap_up lo phi /\ (phi < lo -> wrap_up lo phi < lo + 2 * PI).
Proof.
  intros lo phi. pose proof PI2_pos. destruct (Rlt_le_dec phi lo).
  - unfold wrap_up. set (x := (lo - phi) / (2 * PI)).
    assert (Hx : 0 < x) by (apply Rdiv_lt_0_compat; lra).
    pose proof (RectProofs3.Zceil_bounds x) as Hc.
    assert (Hz : (0 < Zceil x)%Z) by (apply lt_IZR; simpl; lra).
    rewrite Z.max_r by lia.
    assert (E : lo - phi = 2 * PI * x) by (unfold x; field; lra).
    assert (2 * PI * x <= 2 * PI * IZR (Zceil x)) by (apply Rmult_le_compat_l; lra).
    assert (2 * PI * IZR (Zceil x) < 2 * PI * (x + 1)) by (apply Rmult_lt_compat_l; lra).
    split; intros; lra.
  - rewrite wrap_up_id by auto. split; intros; lra.
Qed.
Lemma wrap_down_bounds : forall hi phi, wrap_down hi phi <= hi /\ (hi < phi -> hi - 2 * PI < wrap_down hi phi).
Proof.
  intros hi phi. pose proof PI2_pos. destruct (Rlt_le_dec hi phi).
  - unfold wrap_down. set (x := (phi - hi) / (2 * PI)).
    assert (Hx : 0 < x) by (apply Rdiv_lt_0_compat; lra).
    pose proof (RectProofs3.Zceil_bounds x) as Hc.
    assert (Hz : (0 < Zceil x)%Z) by (apply lt_IZR; simpl; lra).
    rewrite Z.max_r by lia.
    assert (E : phi - hi = 2 * PI * x) by (unfold x; field; lra).
    assert (2 * PI * x <= 2 * PI * IZR (Zceil x)) by (apply Rmult_le_compat_l; lra).
    assert (2 * PI * IZR (Zceil x) < 2 * PI * (x + 1)) by (apply Rmult_lt_compat_l; lra).
    split; intros; lra.
  - rewrite wrap_down_id by auto. split; intros; lra.
Qed.
Lemma wrap_same : forall lo hi phi, same_angle (wrap_down hi (wrap_up lo phi)) phi.
Proof.
  intros. unfold wrap_down. set (u := wrap_up lo phi). unfold wrap_up in u.
  exists (Z.max 0 (Zceil ((lo - phi) / (2 * PI))) - Z.max 0 (Zceil ((u - hi) / (2 * PI))))%Z.
  rewrite minus_IZR. unfold u at 1. lra.
Qed.
(** both loops with a window at least one turn wide leave the angle inside the window *)
Lemma wrap_window : forall lo hi phi, lo + 2 * PI <= hi -> lo <= wrap_down hi (wrap_up lo phi) <= hi.
Proof.
  intros. pose proof PI2_pos. pose proof (wrap_up_bounds lo phi). pose proof (wrap_down_bounds hi (wrap_up lo phi)).
  split; [|tauto]. destruct (Rlt_le_dec hi (wrap_up lo phi)).
  - destruct H2 as [_ H2]. specialize (H2 r). lra.
  - rewrite wrap_down_id; lra.
Qed.
Lemma wrap_id : forall lo hi phi, lo <= phi <= hi -> wrap_down hi (wrap_up lo phi) = phi.
Proof. intros. rewrite wrap_up_id by lra. now rewrite wrap_down_id by lra. Qed.

Lemma same_angle_cos : forall a b c, same_angle a b -> cos (a - c) = cos (b - c).
Proof.
  intros a b c [k ->]. replace (b + 2 * PI * IZR k - c) with ((b - c) + 2 * IZR k * PI) by lra.
  destruct (Z_le_gt_dec 0 k).
  - rewrite <- (Z2Nat.id k) by auto. rewrite <- INR_IZR_INZ. apply cos_period.
  - set (y := b - c). rewrite <- (cos_period (y + 2 * IZR k * PI) (Z.to_nat (- k))).
    f_equal. rewrite INR_IZR_INZ, Z2Nat.id by lia. rewrite opp_IZR. lra.
Qed.

(** ** index coding *)
Lemma pack_code : forall r p, (0 <= r < 65536)%Z -> (0 <= p < 65536)%Z -> disk_pack r p = code r p.
Proof.
  intros. unfold disk_pack. rewrite pack_eq by auto. now apply RectProofs2.code_int32.
Qed.
Lemma code_row : forall r p, (0 <= r < 65536)%Z -> (0 <= p < 65536)%Z -> disk_rowNumber (code r p) = r.
Proof. intros. unfold disk_rowNumber. rewrite <- RectProofs2.code_int32 by auto. now apply pack_row. Qed.
Lemma code_pad : forall r p, (0 <= r < 65536)%Z -> (0 <= p < 65536)%Z -> disk_padNumber (code r p) = p.
Proof. intros. unfold disk_padNumber. rewrite <- RectProofs2.code_int32 by auto. now apply pack_pad. Qed.

(** ** integer part *)
Lemma to_int_ok : forall d n, Ztrunc d = n -> int_ok n -> to_int d = Ok n.
Proof. intros d n <- H. unfold to_int. apply int_okb_true in H. now rewrite H. Qed.
Lemma floor_div_val : forall a b n, b <> 0 -> int_ok n -> IZR n <= a / b < IZR n + 1 -> floor_div a b = Ok n.
Proof.
  intros a b n Hb Hi H. unfold floor_div. destruct (Reqb_spec b 0); [contradiction|].
  rewrite (RectProofs4.Zfloor_val _ n) by auto. apply to_int_ok; auto. apply Ztrunc_IZR.
Qed.
Lemma trunc_div_val : forall a b n, b <> 0 -> int_ok n -> (0 <= n)%Z -> IZR n <= a / b < IZR n + 1 ->
  trunc_div a b = Ok n.
Proof.
  intros a b n Hb Hi Hn H. unfold trunc_div. destruct (Reqb_spec b 0); [contradiction|].
  apply to_int_ok; auto. rewrite Ztrunc_floor.
  - now apply RectProofs4.Zfloor_val.
  - apply IZR_le in Hn. simpl in Hn. lra.
Qed.
(** [floor] of a value of an interval cut into [n] cells *)
Lemma floor_cell : forall x n, (0 < n)%Z -> 0 <= x < IZR n -> exists k, (0 <= k < n)%Z /\ IZR k <= x < IZR k + 1.
Proof.
  intros x n Hn H. exists (Zfloor x). pose proof (Zfloor_lb x). pose proof (Zfloor_ub x). split; [|lra].
  split.
  - apply (Zfloor_lub 0). simpl. lra.
  - apply lt_IZR. lra.
Qed.

(** ** distances *)
Lemma pdist_eq : forall r a r' a', pdist r a r' a' = sqrt (r * r + r' * r' - 2 * r * r' * cos (a - a')).
Proof.
  intros. unfold pdist, RectSpec.dist2. f_equal. rewrite cos_minus.
  pose proof (sin2_cos2 a) as H1. pose proof (sin2_cos2 a') as H2. unfold Rsqr in *.
  replace (r * r) with (r * r * (sin a * sin a + cos a * cos a)) by (rewrite H1; ring).
  replace (r' * r') with (r' * r' * (sin a' * sin a' + cos a' * cos a')) by (rewrite H2; ring).
  ring.
Qed.
Lemma pdist_same : forall r r' a, pdist r a r' a = Rabs (r - r').
Proof.
  intros. rewrite pdist_eq. replace (a - a) with 0 by lra. rewrite cos_0.
  replace (r * r + r' * r' - 2 * r * r' * 1) with ((r - r')²) by (unfold Rsqr; ring). apply sqrt_Rsqr_abs.
Qed.
Lemma quad_nonneg : forall r r' c, -1 <= c <= 1 -> 0 <= r * r + r' * r' - 2 * r * r' * c.
Proof.
  intros. replace (r * r + r' * r' - 2 * r * r' * c) with ((r - r' * c) * (r - r' * c) + r' * r' * (1 - c * c)) by ring.
  assert (0 <= 1 - c * c) by nra. pose proof (Rle_0_sqr (r - r' * c)). pose proof (Rle_0_sqr r'). unfold Rsqr in *. nra.
Qed.
(** distance to the point of one edge at radius r' *)
Lemma edge_distance_is : forall r phi r0 r1 e, r0 <= r1 ->
  (exists r', r0 <= r' <= r1 /\ pdist r phi r' e = edge_distance r phi r0 r1 e) /\
  (forall r', r0 <= r' <= r1 -> edge_distance r phi r0 r1 e <= pdist r phi r' e).
Proof.
  intros r phi r0 r1 e H01. unfold edge_distance.
  rewrite <- cos_minus. set (c := cos (phi - e)). set (X := r * c).
  assert (Hm : r * (cos phi * sin e - sin phi * cos e) = - (r * sin (phi - e))) by (rewrite sin_minus; ring).
  assert (Hsq : (r * sin (phi - e)) * (r * sin (phi - e)) = r * r - X * X).
  { pose proof (sin2_cos2 (phi - e)) as S. unfold Rsqr in S. unfold X. fold c in S.
    replace (r * sin (phi - e) * (r * sin (phi - e))) with (r * r * (sin (phi - e) * sin (phi - e))) by ring.
    replace (sin (phi - e) * sin (phi - e)) with (1 - c * c) by lra. ring. }
  assert (Hc : -1 <= c <= 1) by (unfold c; apply COS_bound).
  assert (E : forall r', pdist r phi r' e = sqrt (r * r + r' * r' - 2 * r' * X)).
  { intros. rewrite pdist_eq. fold c. f_equal. unfold X. ring. }
  assert (P : forall r', 0 <= r * r + r' * r' - 2 * r' * X).
  { intros. pose proof (quad_nonneg r r' c Hc). unfold X. lra. }
  destruct (Rltb_spec X r0) as [Hx|Hx]; [|destruct (Rltb_spec r1 X) as [Hy|Hy]].
  - split.
    + exists r0. split; [lra|]. apply E.
    + intros. rewrite E. apply sqrt_le_1; auto. nra.
  - split.
    + exists r1. split; [lra|]. apply E.
    + intros. rewrite E. apply sqrt_le_1; auto. nra.
  - assert (Em : Rabs (r * (cos phi * sin e - sin phi * cos e)) = sqrt (r * r - X * X)).
    { rewrite Hm, Rabs_Ropp, <- Hsq. symmetry. apply sqrt_Rsqr_abs. }
    rewrite Em. assert (0 <= r * r - X * X) by (rewrite <- Hsq; apply Rle_0_sqr). split.
    + exists X. split; [lra|]. rewrite E. f_equal. ring.
    + intros. rewrite E. apply sqrt_le_1; auto. pose proof (Rle_0_sqr (r' - X)). unfold Rsqr in *. lra.
Qed.
(** cos on [a,b] inside [0,2 PI] is below the larger end value *)
Lemma cos_max_end : forall a b x, 0 <= a -> b <= 2 * PI -> a <= x <= b -> cos x <= Rmax (cos a) (cos b).
Proof.
  intros a b x Ha Hb Hx. destruct (Rle_lt_dec x PI).
  - apply Rle_trans with (cos a); [|apply Rmax_l]. apply cos_decr_1; lra.
  - apply Rle_trans with (cos b); [|apply Rmax_r]. apply cos_incr_1; lra.
Qed.
Lemma disk_distance_euclid : forall c h p r phi, 0 <= r -> 0 <= h -> 0 <= p -> 0 <= fst c - h / 2 ->
  snd c + p / 2 - 2 * PI <= phi <= snd c - p / 2 + 2 * PI ->
  is_sector_dist r phi (fst c - h / 2) (fst c + h / 2) (snd c - p / 2) (snd c + p / 2) (disk_distance c h p r phi).
Proof.
  intros [rc pc] h p r phi Hr Hh Hp H0 Hw. simpl fst in *; simpl snd in *. unfold disk_distance.
  cbn [fst snd]. set (r0 := rc - h / 2) in *. set (r1 := rc + h / 2) in *.
  set (p0 := pc - p / 2) in *. set (p1 := pc + p / 2) in *.
  assert (Hr01 : r0 <= r1) by (unfold r0, r1; lra). assert (Hp01 : p0 <= p1) by (unfold p0, p1; lra).
  destruct (Rleb_spec p0 phi) as [A|A]; cbn [andb]; [destruct (Rleb_spec phi p1) as [B|B]|].
  - (* radial *)
    assert (L : forall r' p', 0 <= r' -> Rabs (r - r') <= pdist r phi r' p').
    { intros r' p' Hr'. rewrite <- (pdist_same r r' phi), !pdist_eq.
      replace (phi - phi) with 0 by lra. rewrite cos_0.
      apply sqrt_le_1; try apply quad_nonneg; try lra; try apply COS_bound.
      pose proof (COS_bound (phi - p')). assert (0 <= r * r') by nra. nra. }
    destruct (Rleb_spec r0 r) as [C|C]; cbn [andb]; [destruct (Rleb_spec r r1) as [D|D]|].
    + split.
      * exists r, phi. split; [lra|split; [lra|]]. rewrite pdist_same, Rminus_diag_eq by auto. apply Rabs_R0.
      * intros. unfold pdist, RectSpec.dist2. apply sqrt_pos.
    + destruct (Rltb_spec r r0); [lra|]. split.
      * exists r1, phi. split; [lra|split; [lra|]]. rewrite pdist_same. apply Rabs_pos_eq. lra.
      * intros. apply Rle_trans with (Rabs (r - r')); [|apply L; lra]. rewrite Rabs_pos_eq; lra.
    + destruct (Rltb_spec r r0); [|lra]. split.
      * exists r0, phi. split; [lra|split; [lra|]]. rewrite pdist_same, Rabs_minus_sym. apply Rabs_pos_eq. lra.
      * intros. apply Rle_trans with (Rabs (r - r')); [|apply L; lra]. rewrite Rabs_minus_sym, Rabs_pos_eq; lra.
  - (* above p1 *)
    destruct (edge_distance_is r phi r0 r1 p0 Hr01) as [[a [Ha Ea]] La].
    destruct (edge_distance_is r phi r0 r1 p1 Hr01) as [[b [Hb Eb]] Lb].
    split.
    + rcase; [exists a, p0|exists b, p1]; split; auto; split; auto; lra.
    + intros r' p' Hr' Hp'.
      assert (M : pdist r phi r' p0 <= pdist r phi r' p' \/ pdist r phi r' p1 <= pdist r phi r' p').
      { pose proof (cos_max_end (phi - p1) (phi - p0) (phi - p') ltac:(lra) ltac:(lra) ltac:(lra)) as C.
        assert (0 <= r * r') by nra.
        rewrite !pdist_eq. unfold Rmax in C. destruct (Rle_dec _ _);
          [left|right]; apply sqrt_le_1; try apply quad_nonneg; try apply COS_bound; nra. }
      rcase; destruct M; specialize (La r' Hr'); specialize (Lb r' Hr'); lra.
  - destruct (edge_distance_is r phi r0 r1 p0 Hr01) as [[a [Ha Ea]] La].
    destruct (edge_distance_is r phi r0 r1 p1 Hr01) as [[b [Hb Eb]] Lb].
    split.
    + rcase; [exists a, p0|exists b, p1]; split; auto; split; auto; lra.
    + intros r' p' Hr' Hp'.
      assert (M : pdist r phi r' p0 <= pdist r phi r' p' \/ pdist r phi r' p1 <= pdist r phi r' p').
      { pose proof (cos_max_end (p0 - phi) (p1 - phi) (p' - phi) ltac:(lra) ltac:(lra) ltac:(lra)) as C.
        assert (0 <= r * r') by nra.
        rewrite !pdist_eq. replace (phi - p0) with (- (p0 - phi)) by lra.
        replace (phi - p1) with (- (p1 - phi)) by lra. replace (phi - p') with (- (p' - phi)) by lra.
        rewrite !cos_neg. unfold Rmax in C. destruct (Rle_dec _ _);
          [right|left]; apply sqrt_le_1; try apply quad_nonneg; try apply COS_bound; nra. }
      rcase; destruct M; specialize (La r' Hr'); specialize (Lb r' Hr'); lra.
Qed.
(** the distance of the centre itself *)
Lemma disk_distance_centre : forall c h p, 0 <= h -> 0 <= p -> disk_distance c h p (fst c) (snd c) = 0.
Proof.
  intros. unfold disk_distance.
  destruct (Rleb_spec (snd c - p / 2) (snd c)); [|lra]. destruct (Rleb_spec (snd c) (snd c + p / 2)); [|lra].
  destruct (Rleb_spec (fst c - h / 2) (fst c)); [|lra]. destruct (Rleb_spec (fst c) (fst c + h / 2)); [|lra].
  reflexivity.
Qed.

(** ** caches *)
Definition cache_ok (f : nat -> list Z) (c : list (option (list Z))) : Prop :=
  forall n v, nth_error c n = Some (Some v) -> v = f n.
Lemma cache_set_length : forall c n v, (n < List.length c)%nat -> List.length (cache_set c n v) = List.length c.
Proof.
  intros. unfold cache_set. rewrite app_length, firstn_length. cbn [List.app List.length]. rewrite skipn_length. lia.
Qed.
Lemma cache_set_nth : forall c n v m, (n < List.length c)%nat ->
  nth_error (cache_set c n v) m = if (m =? n)%nat then Some (Some v) else nth_error c m.
Proof.
  intros c n v m Hn. unfold cache_set.
  assert (Hl : List.length (firstn n c) = n) by (rewrite firstn_length; lia).
  destruct (Nat.eqb_spec m n) as [->|Hm].
  - rewrite nth_error_app2 by lia. rewrite Hl, Nat.sub_diag. reflexivity.
  - destruct (Nat.lt_ge_cases m n).
    + rewrite nth_error_app1 by lia. rewrite ListExtra.nth_firstn by lia. reflexivity.
    + rewrite nth_error_app2 by lia. rewrite Hl. destruct (m - n)%nat as [|k] eqn:E; [lia|].
      cbn [List.app nth_error]. rewrite ListExtra.nth_skipn. f_equal. lia.
Qed.
Lemma cache_ok_set : forall f c n, (n < List.length c)%nat -> cache_ok f c -> cache_ok f (cache_set c n (f n)).
Proof.
  intros f c n Hn H m v Hm. rewrite cache_set_nth in Hm by auto.
  destruct (Nat.eqb_spec m n) as [->|]; [congruence|]. now apply H.
Qed.
Lemma cache_ok_none : forall f n, cache_ok f (repeat None n).
Proof.
  intros f n m v H. apply nth_error_In, repeat_spec in H. discriminate.
Qed.
