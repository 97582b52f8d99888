(** Reading a material map at its grid points, in double arithmetic (C74). *)
From Coq Require Import ZArith List Bool Reals Lra Lia Psatz.
From Flocq Require Import Core Relative.
From Verif Require Import Base RBase VecModel NumModel NumSpec MatModel MatSpec MatProofs FpModel FpProofs FpMapModel FpMapSpec FpMapProofs FpMapCases.
Import ListNotations.
Open Scope R_scope.

Lemma fmod_multiple : forall k b, b <> 0 -> fmod (IZR k * b) b = 0.
Proof. intros k b B. unfold fmod. replace (IZR k * b / b) with (IZR k) by (field; exact B). rewrite Ztrunc_IZR. ring. Qed.

Definition exact_axis (a : axis) : Prop := exact_grid a \/ grid_ok a /\ ax_n a = 0%Z.
Lemma exact_facts : forall a k, exact_axis a -> in_axis a k ->
  fgrid_index1 a (node a k) = Ok k /\ foutside1 a (node a k) = false /\ exists t, fused_points a (node a k) = node a k :: t.
Proof.
  intros a k H K. pose proof (node_at a k K) as N. unfold plane_at in N.
  assert (P : planes a (nodes a) /\ forall i x, nth_error (nodes a) i = Some x -> fgrid_index1 a x = Ok (Z.of_nat i) /\ foutside1 a x = false).
  { destruct H as [H|[H Z0]]; [pose proof (axis_exact a H)|pose proof (axis_single a H Z0)]; tauto. }
  destruct P as [(_ & _ & P) I]. destruct (P _ _ N) as (D & Rg & _). destruct (I _ _ N) as [I1 I2]. rewrite Z2Nat.id in I1 by (unfold in_axis in K; lia).
  split; [exact I1|]. split; [exact I2|].
  assert (F : fmod (fsub (node a k) (ax_min a)) (fstep a) = 0).
  { destruct H as [(A & q & e & E1 & E2 & Q & Nn & B1 & B2 & He)|[G Z0]].
    - set (p := powerRZ 2 e) in *. assert (Pp : 0 < p) by (apply powerRZ_lt; lra).
      assert (n0 : 0 < IZR (ax_n a)) by (apply IZR_lt; lia). assert (q0 : 0 < IZR q) by (apply IZR_lt; lia).
      assert (Df : forall k, (0 <= k <= ax_n a)%Z -> fsub (ax_min a + IZR (k * q) * p) (ax_min a) = IZR (k * q) * p).
      { intros k' Hk. unfold fsub. replace (ax_min a + IZR (k' * q) * p - ax_min a) with (IZR (k' * q) * p) by ring. apply rnd_id. exists (k' * q)%Z, e. split; [reflexivity|]. split; [nia|lia]. }
      assert (Nd : node a k = ax_min a + IZR (k * q) * p).
      { unfold node. destruct (Z.eqb_spec (ax_n a) 0); [lia|]. rewrite E1, E2, !plus_IZR, !mult_IZR. field. lra. }
      assert (St : fstep a = IZR q * p).
      { unfold fstep. destruct (Z.eqb_spec (ax_n a) 0); [lia|]. replace (ax_max a) with (ax_min a + IZR (ax_n a * q) * p) by (rewrite E1, E2, plus_IZR; ring). rewrite Df by lia. unfold fdiv.
        replace (IZR (ax_n a * q) * p / IZR (ax_n a)) with (IZR q * p) by (rewrite mult_IZR; field; lra). apply rnd_id. exists q, e. split; [reflexivity|]. split; [nia|lia]. }
      rewrite Nd, St, Df by exact K. rewrite mult_IZR, Rmult_assoc. apply fmod_multiple. assert (0 < IZR q * p) by (apply Rmult_lt_0_compat; lra). lra.
    - unfold in_axis in K. rewrite Z0 in K. assert (k = 0%Z) by lia. subst k.
      replace (node a 0) with (ax_min a) by (unfold node; rewrite Z0; cbn; ring). unfold fsub, fstep. rewrite Z0. cbn [Z.eqb].
      replace (ax_min a - ax_min a) with 0 by ring. rewrite rnd_0. pose proof (fmod_multiple 0 1 ltac:(lra)) as F. rewrite Rmult_0_l in F. exact F. }
  unfold fused_points. rewrite F. assert (P0 : fsub (node a k) 0 = node a k) by (unfold fsub; rewrite Rminus_0_r; now apply rnd_id). rewrite P0.
  assert (IR : in_range1 a (node a k) = true) by (unfold in_range1; rewrite andb_true_iff, !Rleb_true; lra). rewrite IR.
  cbn [Nat.add firstn]. eexists. reflexivity.
Qed.

Lemma fread_grid : forall m i j k, exact_axis (mm_x m) -> exact_axis (mm_y m) -> exact_axis (mm_z m) ->
  in_axis (mm_x m) i -> in_axis (mm_y m) j -> in_axis (mm_z m) k ->
  let x := node (mm_x m) i in let y := node (mm_y m) j in let z := node (mm_z m) k in
  fgetRadiationLength m x y z = Ok (to_double (fst (mm_val m i j k))) /\
  fgetInteractionLength m x y z = Ok (to_double (snd (mm_val m i j k))).
Proof.
  intros m i j k HX HY HZ Hi Hj Hk x y z.
  destruct (exact_facts _ i HX Hi) as (X1 & X2 & tx & X3). destruct (exact_facts _ j HY Hj) as (Y1 & Y2 & ty & Y3). destruct (exact_facts _ k HZ Hk) as (Z1 & Z2 & tz & Z3).
  fold x in X1, X2, X3. fold y in Y1, Y2, Y3. fold z in Z1, Z2, Z3.
  assert (Ix : fcalculateGridIndex m x y z = Ok (i, j, k)) by (unfold fcalculateGridIndex; rewrite X2, Y2, Z2, X1, Y1, Z1; reflexivity).
  assert (R : finterpolateOnGrid m x y z = Ok (to_double (fst (mm_val m i j k)), to_double (snd (mm_val m i j k)))).
  { unfold finterpolateOnGrid, fall_points. rewrite X3, Y3, Z3. cbn [flat_map map app finterp]. rewrite Ix. cbn [rbind].
    unfold mm_get. rewrite (proj2 (inb_true m i j k)) by auto. cbn [rbind].
    unfold fdist, fsub, fmul, fadd, fsqrt. replace (x - x) with 0 by ring. replace (y - y) with 0 by ring. replace (z - z) with 0 by ring.
    repeat (rewrite rnd_0 || rewrite Rmult_0_r || rewrite Rplus_0_r || rewrite sqrt_0). rewrite Rabs_R0.
    pose proof small_size. destruct (Rltb_spec 0 fsmall); [|lra]. cbn [rbind]. destruct (Reqb_spec 1 0); [lra|]. unfold fdiv, Rdiv. rewrite Rinv_1, !Rmult_1_r. reflexivity. }
  unfold fgetRadiationLength, fgetInteractionLength. rewrite Ix, R. split; reflexivity.
Qed.

(** ** reading between grid points *)
Definition u : R := bpow radix2 (-53).
Lemma u_small : 0 < u <= / 9007199254740992.
Proof. unfold u. split; [apply bpow_gt_0|]. cbn. lra. Qed.
Definition nice (e : Z) (x : R) : Prop := x = 0 \/ bpow radix2 e <= x.
Lemma nice_pos : forall e x, nice e x -> 0 <= x.
Proof. intros e x [->|H]; [lra|]. pose proof (bpow_gt_0 radix2 e). lra. Qed.
Lemma nice_mono : forall e e' x, (e <= e')%Z -> nice e' x -> nice e x.
Proof. intros e e' x H [->|N]; [left; reflexivity|right]. pose proof (bpow_le radix2 e e' H). lra. Qed.
Lemma rel : forall x, nice (-1022) x -> (1 - u) * x <= to_double x <= (1 + u) * x.
Proof.
  intros x N. pose proof (nice_pos _ _ N) as P. destruct N as [->|N]; [rewrite rnd_0; lra|].
  pose proof (relative_error_N_FLT radix2 (-1074) 53 eq_refl (fun x => negb (Z.even x)) x) as E.
  rewrite Rabs_pos_eq in E by exact P. specialize (E N). change (round radix2 (FLT_exp (-1074) 53) (Znearest (fun x => negb (Z.even x))) x) with (to_double x) in E.
  replace (/ 2 * bpow radix2 (- (53) + 1)) with u in E by (unfold u; cbn; lra). apply Rabs_def2b in E || (apply Rabs_le_inv in E). lra.
Qed.
Lemma double_bpow : forall e, (-1074 <= e)%Z -> to_double (bpow radix2 e) = bpow radix2 e.
Proof. intros e H. apply round_generic; [apply _|]. apply generic_format_FLT_bpow; [reflexivity|exact H]. Qed.
Lemma rnd_nice : forall e x, (-1074 <= e)%Z -> nice e x -> nice e (to_double x).
Proof. intros e x H [->|N]; [left; apply rnd_0|right]. rewrite <- (double_bpow e H). now apply rnd_le. Qed.
Lemma rnd_top : forall e x, (-1074 <= e)%Z -> Rabs x <= bpow radix2 e -> Rabs (to_double x) <= bpow radix2 e.
Proof.
  intros e x H A. apply Rabs_le. apply Rabs_le_inv in A. rewrite <- (double_bpow e H). rewrite <- rnd_opp. split; apply rnd_le; lra.
Qed.

(** one point *)
Definition rho : R := 1 + 4 * u.
Lemma rho_ok : 1 <= rho /\ 1 + u <= rho * (1 - u).
Proof. unfold rho. pose proof u_small. split; [lra|]. assert (u * u <= u / 4) by nra. nra. Qed.

Definition inv (lo hi : R) (k : nat) (s w : R) : Prop :=
  nice (-910) s /\ nice (-910) w /\ s <= hi * rho ^ S k * w /\ lo * w <= rho ^ S k * s /\ w <= 4194304 * (2 ^ k - 1).
Lemma inv_step : forall lo hi k s w v d, 0 <= lo -> inv lo hi k s w -> nice (-800) v -> lo <= v <= hi -> 1 / 1000000 <= d <= bpow radix2 105 ->
  inv lo hi (S k) (fadd s (fdiv v d)) (fadd w (fdiv 1 d)) /\ 0 < fadd w (fdiv 1 d).
Proof.
  intros lo hi k s w v d L (Ns & Nw & I1 & I2 & I3) Nv B D. destruct rho_ok as [R1 R2]. pose proof u_small as U.
  assert (I0 : 0 < / d) by (apply Rinv_0_lt_compat; lra).
  assert (D1 : bpow radix2 (-105) <= / d). { pose proof (bpow_opp radix2 105) as E. change (- (105))%Z with (-105)%Z in E. rewrite E. apply Rinv_le; lra. }
  assert (Na : nice (-905) (v / d)).
  { destruct Nv as [->|Nv]; [left; unfold Rdiv; ring|right]. change (-905)%Z with (-800 + -105)%Z. rewrite bpow_plus. unfold Rdiv.
    apply Rmult_le_compat; try (left; apply bpow_gt_0); assumption. }
  assert (Nb : nice (-905) (1 / d)).
  { right. unfold Rdiv. rewrite Rmult_1_l. pose proof (bpow_le radix2 (-905) (-105) ltac:(lia)). lra. }
  set (a := to_double (v / d)). set (b := to_double (1 / d)).
  pose proof (rel (v / d) ltac:(eapply nice_mono; [|exact Na]; lia)) as Ra. fold a in Ra. pose proof (rel (1 / d) ltac:(eapply nice_mono; [|exact Nb]; lia)) as Rb. fold b in Rb.
  assert (Ka : nice (-905) a) by (apply rnd_nice; [lia|exact Na]). assert (Kb : nice (-905) b) by (apply rnd_nice; [lia|exact Nb]).
  assert (Bp : 0 < b). { pose proof (bpow_gt_0 radix2 (-105)). assert (0 < (1 - u) * (1 / d)) by (apply Rmult_lt_0_compat; [lra|unfold Rdiv; lra]). lra. }
  pose proof (nice_pos _ _ Ns) as Ps. pose proof (nice_pos _ _ Nw) as Pw. pose proof (nice_pos _ _ Ka) as Pa.
  assert (Nsum : forall p q, nice (-910) p -> nice (-905) q -> nice (-910) (p + q)).
  { intros p q [->|Hp] Q; [rewrite Rplus_0_l; eapply nice_mono; [|exact Q]; lia|right]. pose proof (nice_pos _ _ Q). lra. }
  pose proof (rel (s + a) ltac:(eapply nice_mono; [|apply Nsum; [exact Ns|exact Ka]]; lia)) as Rs. pose proof (rel (w + b) ltac:(eapply nice_mono; [|apply Nsum; [exact Nw|exact Kb]]; lia)) as Rw.
  change (fadd s (fdiv v d)) with (to_double (s + a)). change (fadd w (fdiv 1 d)) with (to_double (w + b)). set (s' := to_double (s + a)) in *. set (w' := to_double (w + b)) in *.
  assert (W' : 0 < w'). { assert (0 < (1 - u) * (w + b)) by (apply Rmult_lt_0_compat; lra). lra. }
  assert (Ab1 : a <= hi * rho * b).
  { assert (X1 : v / d <= hi * / d) by (unfold Rdiv; apply Rmult_le_compat_r; lra). assert (H0 : 0 <= hi * / d) by (apply Rmult_le_pos; lra).
    assert ((1 + u) * (v / d) <= (1 + u) * (hi * / d)) by (apply Rmult_le_compat_l; lra).
    assert ((1 + u) * (hi * / d) <= rho * (1 - u) * (hi * / d)) by (apply Rmult_le_compat_r; lra).
    assert (hi * rho * ((1 - u) * (1 / d)) <= hi * rho * b) by (apply Rmult_le_compat_l; [apply Rmult_le_pos; lra|lra]).
    replace (rho * (1 - u) * (hi * / d)) with (hi * rho * ((1 - u) * (1 / d))) in * by (unfold Rdiv; ring). lra. }
  assert (Ab2 : lo * b <= rho * a).
  { assert (X1 : lo * / d <= v / d) by (unfold Rdiv; apply Rmult_le_compat_r; lra). assert (H0 : 0 <= lo * / d) by (apply Rmult_le_pos; lra).
    assert (lo * b <= lo * ((1 + u) * (1 / d))) by (apply Rmult_le_compat_l; lra).
    replace (lo * ((1 + u) * (1 / d))) with ((1 + u) * (lo * / d)) in * by (unfold Rdiv; ring).
    assert ((1 + u) * (lo * / d) <= rho * (1 - u) * (lo * / d)) by (apply Rmult_le_compat_r; lra).
    assert (rho * (1 - u) * (lo * / d) <= rho * (1 - u) * (v / d)) by (apply Rmult_le_compat_l; [apply Rmult_le_pos; lra|lra]).
    assert (rho * ((1 - u) * (v / d)) <= rho * a) by (apply Rmult_le_compat_l; lra). lra. }
  set (g := rho ^ S k) in *. assert (G : rho <= g).
  { unfold g. cbn [pow]. pose proof (pow_R1_Rle rho k R1). assert (rho * 1 <= rho * rho ^ k) by (apply Rmult_le_compat_l; lra). lra. }
  assert (Gk : rho ^ S (S k) = rho * g) by reflexivity.
  assert (S1 : s + a <= hi * g * (w + b)).
  { assert (hi * rho * b <= hi * g * b) by (apply Rmult_le_compat_r; [lra|apply Rmult_le_compat_l; lra]). lra. }
  assert (S2 : lo * (w + b) <= g * (s + a)).
  { assert (rho * a <= g * a) by (apply Rmult_le_compat_r; lra). lra. }
  assert (J3 : w' <= 4194304 * (2 ^ S k - 1)).
  { assert (/ d <= 1000000). { replace 1000000 with (/ (1 / 1000000)) by lra. apply Rinv_le; lra. }
    assert ((1 + u) * (1 / d) <= (1 + u) * 1000000) by (apply Rmult_le_compat_l; [lra|unfold Rdiv; lra]).
    assert (b <= 2097152) by lra. assert ((1 + u) * (w + b) <= 2 * (w + b)) by (apply Rmult_le_compat_r; lra).
    change (2 ^ S k) with (2 * 2 ^ k). lra. }
  split; [|exact W']. unfold inv. rewrite Gk.
  split; [apply rnd_nice; [lia|apply Nsum; assumption]|]. split; [apply rnd_nice; [lia|apply Nsum; assumption]|].
  assert (Hg : 0 <= hi * g) by (apply Rmult_le_pos; lra).
  split; [|split; [|exact J3]].
  - assert ((1 + u) * (s + a) <= (1 + u) * (hi * g * (w + b))) by (apply Rmult_le_compat_l; lra).
    assert ((1 + u) * (hi * g * (w + b)) <= rho * (1 - u) * (hi * g * (w + b))) by (apply Rmult_le_compat_r; [apply Rmult_le_pos; lra|lra]).
    assert (hi * (rho * g) * ((1 - u) * (w + b)) <= hi * (rho * g) * w').
    { apply Rmult_le_compat_l; [|lra]. replace (hi * (rho * g)) with (rho * (hi * g)) by ring. apply Rmult_le_pos; lra. }
    replace (rho * (1 - u) * (hi * g * (w + b))) with (hi * (rho * g) * ((1 - u) * (w + b))) in * by ring. lra.
  - assert (lo * w' <= lo * ((1 + u) * (w + b))) by (apply Rmult_le_compat_l; lra).
    assert ((1 + u) * (lo * (w + b)) <= (1 + u) * (g * (s + a))) by (apply Rmult_le_compat_l; lra).
    assert (Z : 0 <= g * (s + a)) by (apply Rmult_le_pos; lra).
    assert ((1 + u) * (g * (s + a)) <= rho * (1 - u) * (g * (s + a))) by (apply Rmult_le_compat_r; lra).
    assert (rho * g * ((1 - u) * (s + a)) <= rho * g * s') by (apply Rmult_le_compat_l; [apply Rmult_le_pos; lra|lra]).
    replace (rho * (1 - u) * (g * (s + a))) with (rho * g * ((1 - u) * (s + a))) in * by ring.
    replace (lo * ((1 + u) * (w + b))) with ((1 + u) * (lo * (w + b))) in * by ring. lra.
Qed.
Lemma inv_end : forall lo hi k s w, 0 <= lo -> 0 <= hi -> inv lo hi k s w -> 0 < w -> (k <= 8)%nat ->
  (1 - bpow radix2 (-47)) * lo <= fdiv s w <= (1 + bpow radix2 (-47)) * hi.
Proof.
  intros lo hi k s w L H (Ns & Nw & I1 & I2 & I3) W K.
  assert (N : nice (-1022) (s / w)).
  { destruct Ns as [->|Ns]; [left; unfold Rdiv; ring|right]. assert (W2 : w <= bpow radix2 31).
    { pose proof (Rle_pow 2 k 8 ltac:(lra) K). change (bpow radix2 31) with 2147483648. replace (2 ^ 8) with 256 in * by ring. lra. }
    assert (I31 : bpow radix2 (-31) <= / w). { pose proof (bpow_opp radix2 31) as E. change (- (31))%Z with (-31)%Z in E. rewrite E. apply Rinv_le; lra. }
    assert (bpow radix2 (-910) * bpow radix2 (-31) <= s / w) by (unfold Rdiv; apply Rmult_le_compat; try (left; apply bpow_gt_0); assumption).
    rewrite <- bpow_plus in *. pose proof (bpow_le radix2 (-1022) (-910 + -31) ltac:(lia)). lra. }
  pose proof (rel _ N) as R. unfold fdiv. destruct rho_ok as [R1 _]. pose proof u_small as U.
  assert (G : rho ^ S k <= rho ^ 9) by (apply Rle_pow; [exact R1|lia]).
  assert (Q : s / w * w = s) by (field; lra). set (r := s / w) in *.
  assert (U1 : r <= hi * rho ^ S k). { apply Rmult_le_reg_r with w; [exact W|]. rewrite Q. exact I1. }
  assert (L1 : lo <= rho ^ S k * r). { apply Rmult_le_reg_r with w; [exact W|]. rewrite Rmult_assoc, Q. exact I2. }
  assert (r0 : 0 <= r) by (apply (nice_pos _ _ N)).
  assert (P9 : rho ^ 9 * (1 + u) <= 1 + 40 * u /\ 1 <= rho ^ 9 <= 1 + 37 * u).
  { assert (Hp : rho ^ 9 <= 1 + 37 * u).
    { unfold rho. pose proof (proj1 U) as Up. assert (Us : u <= / 1000) by lra.
      set (t := 4 * u) in *. assert (T : 0 <= t <= / 250) by (unfold t; lra). replace (37 * u) with (9 * t + t / 4) by (unfold t; lra).
      clear - T. assert (E : (1 + t) ^ 9 = 1 + 9 * t + t * t * (36 + t * (84 + t * (126 + t * (126 + t * (84 + t * (36 + t * (9 + t))))))) ) by ring.
      rewrite E. assert (Hh : 0 <= 36 + t * (84 + t * (126 + t * (126 + t * (84 + t * (36 + t * (9 + t)))))) <= 62).
      { assert (A1 : 0 <= t * (9 + t) <= 1) by (split; nra). assert (A2 : 0 <= t * (36 + t * (9 + t)) <= 1) by (split; nra).
        assert (A3 : 0 <= t * (84 + t * (36 + t * (9 + t))) <= 1) by (split; nra). assert (A4 : 0 <= t * (126 + t * (84 + t * (36 + t * (9 + t)))) <= 1) by (split; nra).
        assert (A5 : 0 <= t * (126 + t * (126 + t * (84 + t * (36 + t * (9 + t))))) <= 1) by (split; nra). assert (A6 : 0 <= t * (84 + t * (126 + t * (126 + t * (84 + t * (36 + t * (9 + t)))))) <= 1) by (split; nra). lra. }
      set (c := 36 + t * (84 + t * (126 + t * (126 + t * (84 + t * (36 + t * (9 + t))))))) in *.
      assert (t * c <= / 4) by nra. nra. }
    pose proof (pow_R1_Rle rho 9 R1). split; [|lra]. nra. }
  destruct P9 as (P1 & P2 & P3).
  assert (E47 : bpow radix2 (-47) = 64 * u) by (unfold u; cbn; lra). rewrite E47. split.
  - assert (rho ^ S k * r <= rho ^ 9 * r) by (apply Rmult_le_compat_r; lra).
    assert (rho ^ 9 * r <= (1 + 37 * u) * r) by (apply Rmult_le_compat_r; lra).
    assert ((1 - 64 * u) * lo <= (1 - 64 * u) * ((1 + 37 * u) * r)) by (apply Rmult_le_compat_l; lra).
    assert ((1 - 64 * u) * (1 + 37 * u) <= 1 - u) by nra.
    assert ((1 - 64 * u) * (1 + 37 * u) * r <= (1 - u) * r) by (apply Rmult_le_compat_r; lra). lra.
  - assert (hi * rho ^ S k <= hi * rho ^ 9) by (apply Rmult_le_compat_l; lra).
    assert ((1 + u) * r <= (1 + u) * (hi * rho ^ 9)) by (apply Rmult_le_compat_l; lra).
    assert (hi * (rho ^ 9 * (1 + u)) <= hi * (1 + 40 * u)) by (apply Rmult_le_compat_l; lra). 
    assert (hi * (1 + 40 * u) <= hi * (1 + 64 * u)) by (apply Rmult_le_compat_l; lra). lra.
Qed.

Section between.
Variables (m : mmap) (x y z lo hi lo' hi' : R).
Hypothesis L0 : 0 <= lo.
Hypothesis L0' : 0 <= lo'.
Hypothesis B : forall i j k, in_axis (mm_x m) i -> in_axis (mm_y m) j -> in_axis (mm_z m) k ->
  nice (-800) (fst (mm_val m i j k)) /\ lo <= fst (mm_val m i j k) <= hi /\
  nice (-800) (snd (mm_val m i j k)) /\ lo' <= snd (mm_val m i j k) <= hi'.
Hypothesis D : forall px py pz p, fcalculateGridIndex m px py pz = Ok p -> fdist x y z px py pz <= bpow radix2 105.

Definition good (r : R * R * R) : Prop :=
  match r with (sr, si, sw) =>
    (exists i j k, in_axis (mm_x m) i /\ in_axis (mm_y m) j /\ in_axis (mm_z m) k /\ sr = fst (mm_val m i j k) /\ si = snd (mm_val m i j k) /\ sw = 1) \/
    exists k, (k <= 8)%nat /\ inv lo hi k sr sw /\ inv lo' hi' k si sw /\ 0 <= sw
  end.
Lemma fdist_pos : forall a b c d e f, 0 <= fdist a b c d e f.
Proof. intros. unfold fdist, fsqrt. rewrite <- rnd_0. apply rnd_le. apply sqrt_pos. Qed.
Lemma interp_good : forall pts k sr si sw r, (length pts + k <= 8)%nat -> inv lo hi k sr sw -> inv lo' hi' k si sw -> 0 <= sw ->
  finterp m x y z pts (sr, si, sw) = Ok r -> good r.
Proof.
  induction pts as [|[[px py] pz] pts IH]; intros k sr si sw r K I1 I2 W E.
  - cbn [finterp] in E. injection E as <-. right. exists k. cbn in K. split; [lia|]. auto.
  - cbn [finterp] in E. destruct (fcalculateGridIndex m px py pz) as [[[i j] l]| |] eqn:G; try discriminate. cbn [rbind] in E.
    unfold mm_get in E. destruct (mm_inb m i j l) eqn:IN; [|discriminate]. cbn [rbind] in E.
    apply inb_true in IN. destruct IN as (N1 & N2 & N3). destruct (B i j l N1 N2 N3) as (V1 & V2 & V3 & V4).
    pose proof (fdist_pos x y z px py pz) as Dp. rewrite Rabs_pos_eq in E by exact Dp. set (d := fdist x y z px py pz) in *.
    destruct (Rltb_spec d fsmall) as [C|C].
    + injection E as <-. left. exists i, j, l. tauto.
    + pose proof small_size as SS. assert (Dd : 1 / 1000000 <= d <= bpow radix2 105) by (split; [lra|apply (D _ _ _ _ G)]).
      destruct (inv_step lo hi k sr sw _ d L0 I1 V1 V2 Dd) as [J1 Wp]. destruct (inv_step lo' hi' k si sw _ d L0' I2 V3 V4 Dd) as [J2 _].
      eapply (IH (S k)); [cbn in K; lia|exact J1|exact J2|lra|exact E].
Qed.
End between.

Lemma two_power : forall e, powerRZ 2 e = bpow radix2 e.
Proof. intros. rewrite bpow_powerRZ. reflexivity. Qed.
Lemma near_enough : forall a p, moderate (ax_min a) -> moderate (ax_max a) -> foutside1 a p = false -> Rabs p <= bpow radix2 102.
Proof.
  unfold moderate. rewrite (two_power 100). intros a p M1 M2 O. unfold foutside1 in O. rewrite orb_false_iff, !Rltb_false in O. destruct O as [O1 O2].
  pose proof small_size as SS. apply Rabs_le_inv in M1. apply Rabs_le_inv in M2.
  assert (E1 : bpow radix2 101 = 2 * bpow radix2 100) by (change 101%Z with (1 + 100)%Z; rewrite bpow_plus; reflexivity).
  assert (E2 : bpow radix2 102 = 2 * bpow radix2 101) by (change 102%Z with (1 + 101)%Z; rewrite bpow_plus; reflexivity).
  assert (P0 : 1 <= bpow radix2 100) by (apply (bpow_le radix2 0 100); lia).
  apply Rabs_le. unfold fadd in O1. unfold fsub in O2. split.
  - destruct (Rle_lt_dec (p + fsmall) (- bpow radix2 101)) as [C|C]; [exfalso|lra]. apply rnd_le in C. rewrite rnd_opp, double_bpow in C by lia. lra.
  - destruct (Rle_lt_dec (bpow radix2 101) (p - fsmall)) as [C|C]; [exfalso|lra]. apply rnd_le in C. rewrite double_bpow in C by lia. lra.
Qed.
Lemma diff_square : forall x p, moderate x -> Rabs p <= bpow radix2 102 -> 0 <= fmul (fsub x p) (fsub x p) <= bpow radix2 206.
Proof.
  unfold moderate. rewrite (two_power 100). intros x p M P.
  assert (A : Rabs (fsub x p) <= bpow radix2 103).
  { apply rnd_top; [lia|]. change 103%Z with (1 + 102)%Z. rewrite bpow_plus. change (bpow radix2 1) with 2. pose proof (bpow_le radix2 100 102 ltac:(lia)).
    unfold Rminus. pose proof (Rabs_triang x (- p)). rewrite Rabs_Ropp in *. lra. }
  set (t := fsub x p) in *. unfold fmul. assert (S : 0 <= t * t <= bpow radix2 206).
  { split; [apply Rle_0_sqr|]. change 206%Z with (103 + 103)%Z. rewrite bpow_plus. rewrite <- (Rabs_pos_eq (t * t)) by apply Rle_0_sqr. rewrite Rabs_mult.
    apply Rmult_le_compat; try apply Rabs_pos; exact A. }
  split; [rewrite <- rnd_0; apply rnd_le; lra|]. rewrite <- (double_bpow 206) by lia. apply rnd_le. lra.
Qed.
Lemma fdist_top : forall m x y z, (forall a, In a [mm_x m; mm_y m; mm_z m] -> moderate (ax_min a) /\ moderate (ax_max a)) ->
  moderate x -> moderate y -> moderate z ->
  forall px py pz p, fcalculateGridIndex m px py pz = Ok p -> fdist x y z px py pz <= bpow radix2 105.
Proof.
  intros m x y z HA Hx Hy Hz px py pz p G. unfold fcalculateGridIndex in G.
  destruct (foutside1 (mm_x m) px || foutside1 (mm_y m) py || foutside1 (mm_z m) pz)%bool eqn:O; [discriminate|].
  rewrite !orb_false_iff in O. destruct O as [[O1 O2] O3].
  destruct (HA (mm_x m) ltac:(cbn; auto)) as [X1 X2]. destruct (HA (mm_y m) ltac:(cbn; auto)) as [Y1 Y2]. destruct (HA (mm_z m) ltac:(cbn; auto)) as [Z1 Z2].
  pose proof (diff_square x px Hx (near_enough _ _ X1 X2 O1)) as Q1. pose proof (diff_square y py Hy (near_enough _ _ Y1 Y2 O2)) as Q2. pose proof (diff_square z pz Hz (near_enough _ _ Z1 Z2 O3)) as Q3.
  unfold fdist. set (a := fmul (fsub x px) (fsub x px)) in *. set (b := fmul (fsub y py) (fsub y py)) in *. set (c := fmul (fsub z pz) (fsub z pz)) in *.
  assert (E : forall k, bpow radix2 (1 + k) = 2 * bpow radix2 k) by (intros k; rewrite bpow_plus; reflexivity).
  assert (S1 : 0 <= fadd a b <= bpow radix2 207).
  { unfold fadd. split; [rewrite <- rnd_0; apply rnd_le; lra|]. rewrite <- (double_bpow 207) by lia. apply rnd_le. change 207%Z with (1 + 206)%Z. rewrite E. lra. }
  assert (S2 : 0 <= fadd (fadd a b) c <= bpow radix2 208).
  { unfold fadd at 1 3. split; [rewrite <- rnd_0; apply rnd_le; lra|]. rewrite <- (double_bpow 208) by lia. apply rnd_le. change 208%Z with (1 + 207)%Z. pose proof (bpow_le radix2 206 207 ltac:(lia)). rewrite E. lra. }
  apply Rle_trans with (bpow radix2 104); [|apply bpow_le; lia]. unfold fsqrt. rewrite <- (double_bpow 104) by lia. apply rnd_le.
  rewrite <- (sqrt_square (bpow radix2 104)) by apply bpow_ge_0. apply sqrt_le_1_alt. rewrite <- bpow_plus. apply S2.
Qed.
Lemma few_points : forall a x, (length (fused_points a x) <= 2)%nat.
Proof. intros. unfold fused_points. rewrite firstn_length. cbn [length]. lia. Qed.
Lemma flat_map_le : forall A B (f : A -> list B) n l, (forall a, In a l -> (length (f a) <= n)%nat) -> (length (flat_map f l) <= length l * n)%nat.
Proof.
  intros A B f n l. induction l as [|a l IH]; intros H; [cbn; lia|]. cbn [flat_map length]. rewrite app_length. pose proof (H a (or_introl eq_refl)).
  specialize (IH (fun b Hb => H b (or_intror Hb))). lia.
Qed.
Lemma eight_points : forall m x y z, (length (fall_points m x y z) <= 8)%nat.
Proof.
  intros. unfold fall_points. pose proof (few_points (mm_x m) x). pose proof (few_points (mm_y m) y). pose proof (few_points (mm_z m) z).
  eapply Nat.le_trans; [apply (flat_map_le _ _ _ 4)|lia]. intros px _. eapply Nat.le_trans; [apply (flat_map_le _ _ _ 2)|lia]. intros py _. rewrite map_length. lia.
Qed.

Lemma fread_between : forall m x y z lo hi lo' hi', (forall a, In a [mm_x m; mm_y m; mm_z m] -> moderate (ax_min a) /\ moderate (ax_max a)) ->
  moderate x -> moderate y -> moderate z -> 0 <= lo -> 0 <= lo' ->
  (forall i j k, in_axis (mm_x m) i -> in_axis (mm_y m) j -> in_axis (mm_z m) k ->
     let v := mm_val m i j k in usual (fst v) /\ lo <= fst v <= hi /\ usual (snd v) /\ lo' <= snd v <= hi') ->
  forall r, finterpolateOnGrid m x y z = Ok r ->
  (1 - reading_error) * lo <= fst r <= (1 + reading_error) * hi /\ (1 - reading_error) * lo' <= snd r <= (1 + reading_error) * hi'.
Proof.
  intros m x y z lo hi lo' hi' HA Hx Hy Hz L L' B r E. unfold reading_error. rewrite (two_power (-47)).
  assert (B' : forall i j k, in_axis (mm_x m) i -> in_axis (mm_y m) j -> in_axis (mm_z m) k ->
    nice (-800) (fst (mm_val m i j k)) /\ lo <= fst (mm_val m i j k) <= hi /\ nice (-800) (snd (mm_val m i j k)) /\ lo' <= snd (mm_val m i j k) <= hi').
  { intros i j k Hi Hj Hk. specialize (B i j k Hi Hj Hk). cbv zeta in B. unfold usual in B. rewrite (two_power (-800)) in B. exact B. }
  unfold finterpolateOnGrid in E. destruct (finterp m x y z (fall_points m x y z) (0, 0, 0)) as [[[sr si] sw]| |] eqn:F; try discriminate. cbn [rbind] in E.
  destruct (Reqb_spec sw 0) as [|NZ]; [discriminate|]. injection E as <-. cbn [fst snd].
  assert (I0 : forall l h, inv l h 0 0 0) by (intros; unfold inv, nice; repeat split; auto; cbn; lra).
  assert (Gd : good m lo hi lo' hi' (sr, si, sw)).
  { eapply (interp_good m x y z lo hi lo' hi' L L' B' (fdist_top m x y z HA Hx Hy Hz) _ O 0 0 0); eauto; [pose proof (eight_points m x y z); lia|lra]. }
  destruct Gd as [(i & j & k & N1 & N2 & N3 & -> & -> & ->)|(k & K & J1 & J2 & W)].
  - destruct (B' i j k N1 N2 N3) as (V1 & V2 & V3 & V4). unfold fdiv, Rdiv. rewrite Rinv_1, !Rmult_1_r.
    pose proof (rel (fst (mm_val m i j k)) ltac:(eapply nice_mono; [|exact V1]; lia)) as R1. pose proof (rel (snd (mm_val m i j k)) ltac:(eapply nice_mono; [|exact V3]; lia)) as R2.
    assert (E47 : bpow radix2 (-47) = 64 * u) by (unfold u; cbn; lra). rewrite E47. pose proof u_small as U. clear - L L' V2 V4 R1 R2 U. repeat split; nra.
  - assert (0 < sw) by lra. split; eapply inv_end; eauto.
    + destruct J1 as (N1 & _ & I1 & _). destruct (Rle_lt_dec 0 hi) as [C|C]; [exact C|exfalso]. pose proof (nice_pos _ _ N1) as P1. destruct rho_ok as [R1 _].
      pose proof (pow_R1_Rle rho (S k) R1). assert (0 < rho ^ S k * sw) by (apply Rmult_lt_0_compat; lra). nra.
    + destruct J2 as (N1 & _ & I1 & _). destruct (Rle_lt_dec 0 hi') as [C|C]; [exact C|exfalso]. pose proof (nice_pos _ _ N1) as P1. destruct rho_ok as [R1 _].
      pose proof (pow_R1_Rle rho (S k) R1). assert (0 < rho ^ S k * sw) by (apply Rmult_lt_0_compat; lra). nra.
Qed.
Lemma fread_lengths : forall m x y z lo hi lo' hi', (forall a, In a [mm_x m; mm_y m; mm_z m] -> moderate (ax_min a) /\ moderate (ax_max a)) ->
  moderate x -> moderate y -> moderate z -> 0 <= lo -> 0 <= lo' ->
  (forall i j k, in_axis (mm_x m) i -> in_axis (mm_y m) j -> in_axis (mm_z m) k ->
     let v := mm_val m i j k in usual (fst v) /\ lo <= fst v <= hi /\ usual (snd v) /\ lo' <= snd v <= hi') ->
  (forall r, fgetRadiationLength m x y z = Ok r -> (1 - reading_error) * lo <= r <= (1 + reading_error) * hi) /\
  (forall r, fgetInteractionLength m x y z = Ok r -> (1 - reading_error) * lo' <= r <= (1 + reading_error) * hi').
Proof.
  intros m x y z lo hi lo' hi' HA Hx Hy Hz L L' B. pose proof (fread_between m x y z lo hi lo' hi' HA Hx Hy Hz L L' B) as K.
  unfold fgetRadiationLength, fgetInteractionLength. destruct (fcalculateGridIndex m x y z); cbn [rbind]; try (split; discriminate).
  destruct (finterpolateOnGrid m x y z) as [r| |]; cbn [rmap]; try (split; discriminate). specialize (K r eq_refl).
  split; intros r' [= <-]; apply K.
Qed.
