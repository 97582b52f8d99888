(** Proofs about a single TPC module: extents and border. *)
From Coq Require Import ZArith List String Bool Reals Lra Lia.
From Flocq Require Import Core.Raux.
From Verif Require Import Base RBase Trig DiskBase DiskSpec DiskProofs TpcModuleModel TpcModel TpcSpec
  TpcModuleProofs TpcModuleProofs2.
Import ListNotations.
Open Scope R_scope.

(** ** the local extent is the plane extent grown by the border *)
Lemma convert_local : forall m m', state_of (convert m) = Some m' ->
  local_extent (m_layout m) (m_border m) = Ok (m_localExtent m').
Proof.
  intros m m' H. unfold convert in H.
  destruct (local_extent (m_layout m) (m_border m)) as [l|e|] eqn:E; cbn [state_of] in H; [| |discriminate].
  - f_equal. destruct (rbind _ _) as [[me pe]|e|]; cbn [state_of] in H; [| |discriminate]; injection H as <-; reflexivity.
  - exfalso. unfold local_extent in E. destruct (Reqb _ _); [discriminate|].
    destruct (lay_type _ =? _)%Z; [|discriminate]. destruct (Rltb 0 (e1 _)); [destruct (Reqb (e0 _) 0)|];
      cbn [rbind] in E; try discriminate; destruct (Rltb _ _); discriminate.
Qed.
Lemma call_local : forall m c m', state_of (call_module m c) = Some m' -> known_type (m_type m) ->
  (local_extent (m_layout m) (m_border m) = Ok (m_localExtent m)) ->
  local_extent (m_layout m') (m_border m') = Ok (m_localExtent m').
Proof.
  intros m c m' H K L.
  assert (C : forall x, state_of (convert x) = Some m' -> local_extent (m_layout m') (m_border m') = Ok (m_localExtent m')).
  { intros x Hx. pose proof (convert_core _ _ Hx) as [Hc _]. pose proof (convert_local _ _ Hx) as Hl.
    unfold core in Hc. injection Hc as E1 E2 E3 E4 E5 E6 E7 E8 E9 E10 E11 E12 E13 E14. rewrite E1, E12. exact Hl. }
  destruct c as [a b|z|a|b|f]; unfold call_module in H.
  - unfold setOffset in H. destruct K as [K|K]; rewrite K in H; cbn [Z.eqb POLAR CARTESIAN Pos.eqb] in H; eapply C; exact H.
  - cbn in H. injection H as <-. exact L.
  - eapply C. exact H.
  - eapply C. exact H.
  - cbn in H. injection H as <-. exact L.
Qed.
Lemma local_extent_made : forall id p type f h m, module_made id p type f h m ->
  local_extent p (last_border h) = Ok (getLocalModuleExtent m).
Proof.
  intros id p type f h m [K H]. unfold getLocalModuleExtent. revert m H.
  induction h as [|c h IH] using rev_ind; intros m H.
  - cbn in H. injection H as <-. unfold local_extent, last_border. cbn -[Reqb].
    destruct (Reqb_spec 0 0); [reflexivity|lra].
  - rewrite call_all_app in H. destruct (call_all _ h) as [m0|] eqn:E; [|discriminate].
    specialize (IH m0 eq_refl).
    pose proof (made_is id p type f h m0 (conj K E)) as M0.
    pose proof (made_step _ _ _ _ _ _ _ K M0 H) as M1.
    rewrite <- (md_border _ _ _ _ _ M1), <- (md_layout _ _ _ _ _ M1).
    eapply call_local; [exact H| |].
    + now rewrite (md_type _ _ _ _ _ M0).
    + now rewrite (md_layout _ _ _ _ _ M0), (md_border _ _ _ _ _ M0).
Qed.

Lemma border_cartesian : forall id p type f h m, module_made id p type f h m -> lay_type p = CARTESIAN ->
  let b := last_border h in let e := lay_extent p in
  getLocalModuleExtent m = mkE (e0 e - b) (e1 e + b) (e2 e - b) (e3 e + b).
Proof.
  intros id p type f h m Hm T b e. apply local_extent_made in Hm. fold b in Hm. unfold local_extent in Hm.
  rewrite T in Hm. cbn [Z.eqb POLAR CARTESIAN Pos.eqb] in Hm. fold e in Hm. destruct (Reqb_spec b 0) as [B|B].
  - injection Hm as <-. rewrite B, !Rminus_0_r, !Rplus_0_r. now destruct e.
  - now injection Hm as <-.
Qed.
Lemma border_polar : forall id p type f h m, module_made id p type f h m -> lay_type p = POLAR ->
  let b := last_border h in let e := lay_extent p in 0 < e0 e -> 0 < e1 e ->
  e3 e - e2 e + 2 * (b / e0 e) <= 2 * PI ->
  getLocalModuleExtent m = mkE (Rmax (e0 e - b) 0) (e1 e + b) (e2 e - b / e0 e) (e3 e + b / e0 e).
Proof.
  intros id p type f h m Hm T b e P0 P1 W. apply local_extent_made in Hm. fold b in Hm. unfold local_extent in Hm.
  rewrite T in Hm. cbn [Z.eqb POLAR CARTESIAN Pos.eqb] in Hm. fold e in Hm. destruct (Reqb_spec b 0) as [B|B].
  - injection Hm as <-. rewrite B. unfold Rdiv. rewrite Rmult_0_l, !Rminus_0_r, !Rplus_0_r, Rmax_left by lra.
    now destruct e.
  - destruct (Rltb_spec 0 (e1 e)); [|lra]. destruct (Reqb_spec (e0 e) 0); [lra|]. cbn [rbind] in Hm.
    destruct (Rltb_spec (2 * PI) (e3 e + b / e0 e - (e2 e - b / e0 e))); [lra|]. injection Hm as <-. f_equal.
    destruct (Rleb_spec 0 (e0 e - b)); [rewrite Rmax_left|rewrite Rmax_right]; lra.
Qed.
(** a border that would make the module wider than a full turn makes it narrower than its pads *)
Lemma border_too_wide : forall id p type f h m, module_made id p type f h m -> lay_type p = POLAR ->
  let b := last_border h in let e := lay_extent p in 0 < e0 e -> 0 < e1 e -> b <> 0 ->
  2 * PI < e3 e - e2 e + 2 * (b / e0 e) ->
  e2 e < e2 (getLocalModuleExtent m) /\ e3 (getLocalModuleExtent m) < e3 e /\
  e3 (getLocalModuleExtent m) - e2 (getLocalModuleExtent m) = 2 * PI - 2 * (b / e0 e).
Proof.
  intros id p type f h m Hm T b e P0 P1 B W. apply local_extent_made in Hm. fold b in Hm. unfold local_extent in Hm.
  rewrite T in Hm. cbn [Z.eqb POLAR CARTESIAN Pos.eqb] in Hm. fold e in Hm. destruct (Reqb_spec b 0); [lra|].
  destruct (Rltb_spec 0 (e1 e)); [|lra]. destruct (Reqb_spec (e0 e) 0); [lra|]. cbn [rbind] in Hm.
  destruct (Rltb_spec (2 * PI) (e3 e + b / e0 e - (e2 e - b / e0 e))); [|lra]. injection Hm as <-.
  cbn [e2 e3]. repeat split; lra.
Qed.

(** ** maximum over a ring sector *)
Lemma upper_max : forall a b, upper a b = Rmax a b.
Proof. intros. unfold upper. rcase; [rewrite Rmax_right|rewrite Rmax_left]; lra. Qed.
Lemma lower_min : forall a b, lower a b = Rmin a b.
Proof. intros. unfold lower. rcase; [rewrite Rmin_right|rewrite Rmin_left]; lra. Qed.

Lemma cos_shift : forall x k, cos (x + 2 * PI * IZR k) = cos x.
Proof.
  intros. pose proof (same_angle_cos (x + 2 * PI * IZR k) x 0) as H. rewrite !Rminus_0_r in H. apply H.
  exists k. reflexivity.
Qed.
Lemma cos_max_turn : forall k a b x, 2 * PI * IZR k <= a -> b <= 2 * PI * IZR k + 2 * PI -> a <= x <= b ->
  cos x <= Rmax (cos a) (cos b).
Proof.
  intros k a b x Ha Hb Hx. pose proof (cos_max_end (a - 2 * PI * IZR k) (b - 2 * PI * IZR k) (x - 2 * PI * IZR k)) as H.
  rewrite <- (cos_shift (a - 2 * PI * IZR k) k), <- (cos_shift (b - 2 * PI * IZR k) k),
          <- (cos_shift (x - 2 * PI * IZR k) k) in H.
  replace (a - 2 * PI * IZR k + 2 * PI * IZR k) with a in H by lra.
  replace (b - 2 * PI * IZR k + 2 * PI * IZR k) with b in H by lra.
  replace (x - 2 * PI * IZR k + 2 * PI * IZR k) with x in H by lra. apply H; lra.
Qed.

Lemma four_le : forall x a b c d, x <= a \/ x <= b \/ x <= c \/ x <= d -> x <= Rmax (Rmax (Rmax a b) c) d.
Proof.
  intros x a b c d H. pose proof (Rmax_l (Rmax (Rmax a b) c) d). pose proof (Rmax_r (Rmax (Rmax a b) c) d).
  pose proof (Rmax_l (Rmax a b) c). pose proof (Rmax_r (Rmax a b) c). pose proof (Rmax_l a b). pose proof (Rmax_r a b). lra.
Qed.
Lemma four_is : forall a b c d, let x := Rmax (Rmax (Rmax a b) c) d in x = a \/ x = b \/ x = c \/ x = d.
Proof. intros. unfold x, Rmax. repeat destruct (Rle_dec _ _); auto. Qed.

Lemma sector_max : forall l phi f0, sane_extent POLAR l -> two_turns l -> 0 <= phi < 2 * PI ->
  let F r t := f0 + r * cos (t - phi) in
  let M := if in_active l phi then f0 + e1 l
           else Rmax (Rmax (Rmax (F (e0 l) (e2 l)) (F (e0 l) (e3 l))) (F (e1 l) (e2 l))) (F (e1 l) (e3 l)) in
  (forall r t, e0 l <= r <= e1 l -> e2 l <= t <= e3 l -> F r t <= M) /\
  (exists r t, e0 l <= r <= e1 l /\ e2 l <= t <= e3 l /\ F r t = M).
Proof.
  intros l phi f0 (S1 & S2 & S3) [T1 T2] Hp F M. destruct (S3 eq_refl) as [S4 S5]. pose proof PI2_pos as P2.
  assert (Hoff : other_turn phi = phi - 2 * PI) by (unfold other_turn; destruct (Rltb_spec phi 0); lra).
  destruct (in_active l phi) eqn:A.
  - assert (exists t, e2 l <= t <= e3 l /\ cos (t - phi) = 1) as (t & Ht & Ct).
    { unfold in_active, in_open in A. rewrite Hoff in A. rewrite orb_true_iff, !andb_true_iff, !Rltb_true in A.
      destruct A as [A|A].
      - exists phi. split; [lra|]. replace (phi - phi) with 0 by lra. apply cos_0.
      - exists (phi - 2 * PI). split; [lra|]. replace (phi - 2 * PI - phi) with (0 + 2 * PI * IZR (-1)) by (simpl; lra).
        rewrite cos_shift. apply cos_0. }
    split.
    + intros r u Hr Hu. unfold F, M. pose proof (COS_bound (u - phi)). nra.
    + exists (e1 l), t. split; [lra|split; [exact Ht|]]. unfold F, M. rewrite Ct. ring.
  - assert (exists k, 2 * PI * IZR k <= e2 l - phi /\ e3 l - phi <= 2 * PI * IZR k + 2 * PI) as (k & K1 & K2).
    { unfold in_active, in_open in A. rewrite Hoff in A. rewrite orb_false_iff, !andb_false_iff, !Rltb_false in A.
      destruct A as [A1 A2]. destruct (Rle_dec phi (e2 l)) as [B|B].
      - exists 0%Z. simpl. lra.
      - destruct A1 as [A1|A1]; [contradiction|]. destruct A2 as [A2|A2].
        + exists (-1)%Z. simpl. lra.
        + exists (-2)%Z. simpl. lra. }
    split.
    + intros r u Hr Hu. unfold M. apply four_le. unfold F.
      pose proof (cos_max_turn k (e2 l - phi) (e3 l - phi) (u - phi) K1 K2 ltac:(lra)) as C.
      assert (X : forall v, cos (u - phi) <= v -> f0 + r * cos (u - phi) <= f0 + e0 l * v \/
                                                 f0 + r * cos (u - phi) <= f0 + e1 l * v).
      { intros v Hv. destruct (Rle_dec 0 v); [right|left]; nra. }
      destruct (Rle_dec (cos (e2 l - phi)) (cos (e3 l - phi))).
      * rewrite Rmax_right in C by lra. destruct (X _ C); auto.
      * rewrite Rmax_left in C by lra. destruct (X _ C); auto.
    + pose proof (four_is (F (e0 l) (e2 l)) (F (e0 l) (e3 l)) (F (e1 l) (e2 l)) (F (e1 l) (e3 l))) as W.
      cbv zeta in W. fold M in W.
      destruct W as [W|[W|[W|W]]]; [exists (e0 l), (e2 l)|exists (e0 l), (e3 l)|exists (e1 l), (e2 l)|exists (e1 l), (e3 l)];
        (split; [lra|split; [lra|symmetry; exact W]]).
Qed.

(** ** the hull in a Cartesian TPC *)
Definition lin (pl : placement) (q : R * R) : R * R := mount pl q.

Lemma hull_cc : forall pl l, sane_extent CARTESIAN l ->
  let a := mount pl (e0 l, e2 l) in let b := mount pl (e0 l, e3 l) in
  let c := mount pl (e1 l, e2 l) in let d := mount pl (e1 l, e3 l) in
  is_hull (area CARTESIAN l pl)
    (mkE (lower (lower (lower (fst a) (fst b)) (fst c)) (fst d))
         (upper (upper (upper (fst a) (fst b)) (fst c)) (fst d))
         (lower (lower (lower (snd a) (snd b)) (snd c)) (snd d))
         (upper (upper (upper (snd a) (snd b)) (snd c)) (snd d))).
Proof.
  intros pl l (S1 & S2 & _) a b c d.
  assert (L : forall A B C u v, e0 l <= u <= e1 l -> e2 l <= v <= e3 l ->
    let g x y := A + B * x + C * y in
    lower (lower (lower (g (e0 l) (e2 l)) (g (e0 l) (e3 l))) (g (e1 l) (e2 l))) (g (e1 l) (e3 l)) <= g u v <=
    upper (upper (upper (g (e0 l) (e2 l)) (g (e0 l) (e3 l))) (g (e1 l) (e2 l))) (g (e1 l) (e3 l))).
  { intros A B C u v U V g. rewrite !lower_min, !upper_max.
    assert (H1 : B * e0 l <= B * u <= B * e1 l \/ B * e1 l <= B * u <= B * e0 l) by (destruct (Rle_dec 0 B); [left|right]; nra).
    assert (H2 : C * e2 l <= C * v <= C * e3 l \/ C * e3 l <= C * v <= C * e2 l) by (destruct (Rle_dec 0 C); [left|right]; nra).
    set (k1 := g (e0 l) (e2 l)). set (k2 := g (e0 l) (e3 l)). set (k3 := g (e1 l) (e2 l)). set (k4 := g (e1 l) (e3 l)).
    pose proof (Rmin_l (Rmin (Rmin k1 k2) k3) k4). pose proof (Rmin_r (Rmin (Rmin k1 k2) k3) k4).
    pose proof (Rmin_l (Rmin k1 k2) k3). pose proof (Rmin_r (Rmin k1 k2) k3). pose proof (Rmin_l k1 k2). pose proof (Rmin_r k1 k2).
    pose proof (Rmax_l (Rmax (Rmax k1 k2) k3) k4). pose proof (Rmax_r (Rmax (Rmax k1 k2) k3) k4).
    pose proof (Rmax_l (Rmax k1 k2) k3). pose proof (Rmax_r (Rmax k1 k2) k3). pose proof (Rmax_l k1 k2). pose proof (Rmax_r k1 k2).
    assert (E1 : k1 = A + B * e0 l + C * e2 l) by reflexivity. assert (E2 : k2 = A + B * e0 l + C * e3 l) by reflexivity.
    assert (E3 : k3 = A + B * e1 l + C * e2 l) by reflexivity. assert (E4 : k4 = A + B * e1 l + C * e3 l) by reflexivity.
    assert (EG : g u v = A + B * u + C * v) by reflexivity. rewrite EG. clearbody k1 k2 k3 k4. clear g EG. lra. }
  assert (FX : exists A B C, forall u v, fst (mount pl (u, v)) = A + B * u + C * v).
  { unfold mount. cbn [fst snd]. destruct (pl_neg pl).
    - exists (- pl_x pl), (- cos (pl_angle pl)), (sin (pl_angle pl)). intros; cbn [fst]; ring.
    - exists (pl_x pl), (cos (pl_angle pl)), (- sin (pl_angle pl)). intros; cbn [fst]; ring. }
  assert (FY : exists A B C, forall u v, snd (mount pl (u, v)) = A + B * u + C * v).
  { exists (pl_y pl), (sin (pl_angle pl)), (cos (pl_angle pl)). intros; unfold mount; cbn [fst snd]; ring. }
  destruct FX as (AX & BX & CX & FX). destruct FY as (AY & BY & CY & FY).
  assert (CORNER : forall g : R * R -> R,
     (exists q, area CARTESIAN l pl q /\ g q = lower (lower (lower (g a) (g b)) (g c)) (g d)) /\
     (exists q, area CARTESIAN l pl q /\ g q = upper (upper (upper (g a) (g b)) (g c)) (g d))).
  { intros g.
    assert (QA : area CARTESIAN l pl a) by (exists (e0 l), (e2 l); repeat split; lra).
    assert (QB : area CARTESIAN l pl b) by (exists (e0 l), (e3 l); repeat split; lra).
    assert (QC : area CARTESIAN l pl c) by (exists (e1 l), (e2 l); repeat split; lra).
    assert (QD : area CARTESIAN l pl d) by (exists (e1 l), (e3 l); repeat split; lra).
    unfold lower, upper. split; repeat rcase; eauto. }
  split; [|split; [|split; [|split]]].
  - intros q (u & v & U & V & ->). rewrite point_cart. unfold a, b, c, d. cbn [e0 e1 e2 e3]. rewrite !FX, !FY. split.
    + exact (L AX BX CX u v U V).
    + exact (L AY BY CY u v U V).
  - exact (proj1 (CORNER fst)).
  - exact (proj2 (CORNER fst)).
  - exact (proj1 (CORNER snd)).
  - exact (proj2 (CORNER snd)).
Qed.

(** convert stores the extents of the module it leaves behind *)
Lemma g2l_core : forall m m' a b, core m' = core m -> globalToLocal m' a b = globalToLocal m a b.
Proof.
  intros m m' a b E. unfold core in E. injection E as E1 E2 E3 E4 E5 E6 E7 E8 E9 E10 E11 E12 E13 E14.
  unfold globalToLocal. rewrite E1, E4, E5, E6, E7, E8, E9, E10, E13. reflexivity.
Qed.
Lemma l2g_core : forall m m' a b, core m' = core m -> localToGlobal m' a b = localToGlobal m a b.
Proof.
  intros m m' a b E. unfold core in E. injection E as E1 E2 E3 E4 E5 E6 E7 E8 E9 E10 E11 E12 E13 E14.
  unfold localToGlobal. rewrite E1, E4, E5, E6, E7, E8, E9, E10, E13. reflexivity.
Qed.
Lemma rbind_ext : forall A B (r : result A) (k k' : A -> result B), (forall a, k a = k' a) -> rbind r k = rbind r k'.
Proof. intros A B [a|e|] k k' H; cbn; auto. Qed.
Lemma global_extent_core : forall m m' l, core m' = core m -> global_extent m' l = global_extent m l.
Proof.
  intros m m' l E. pose proof E as E'. unfold core in E. injection E as E1 E2 E3 E4 E5 E6 E7 E8 E9 E10 E11 E12 E13 E14.
  assert (CC : extent_cc m' l = extent_cc m l).
  { unfold extent_cc. rewrite (l2g_core m m' (e0 l) (e2 l) E'), (l2g_core m m' (e0 l) (e3 l) E'),
      (l2g_core m m' (e1 l) (e2 l) E'), (l2g_core m m' (e1 l) (e3 l) E'). reflexivity. }
  assert (CP : extent_cp m' l = extent_cp m l).
  { unfold extent_cp. rewrite CC, (l2g_core m m' 0 0 E'). apply rbind_ext; intros e. apply rbind_ext; intros o.
    rewrite (g2l_core m m' _ _ E'). apply rbind_ext; intros t. rewrite (g2l_core m m' _ _ E'). apply rbind_ext; intros b.
    rewrite (g2l_core m m' _ _ E'). apply rbind_ext; intros r. rewrite (g2l_core m m' _ _ E'). reflexivity. }
  assert (PO : forall o a0 a1 a2 a3, pp_phi_outside m' l o a0 a1 a2 a3 = pp_phi_outside m l o a0 a1 a2 a3).
  { intros. unfold pp_phi_outside. rewrite E6, (l2g_core m m' 0 0 E'). destruct (Reqb (fst o) 0); [reflexivity|].
    apply rbind_ext; intros og. rewrite !(g2l_core m m' _ _ E'). reflexivity. }
  assert (PI' : forall o a0 a1 a2 a3, pp_phi_inside m' l o a0 a1 a2 a3 = pp_phi_inside m l o a0 a1 a2 a3).
  { intros. unfold pp_phi_inside. rewrite E6. reflexivity. }
  assert (PP : extent_pp m' l = extent_pp m l).
  { unfold extent_pp. rewrite E2. destruct (Reqb (m_off0 m) 0).
    - unfold extent_pp_centred. rewrite E6, E7. reflexivity.
    - rewrite (g2l_core m m' 0 0 E'). apply rbind_ext; intros o. rewrite (l2g_core m m' _ _ E'). apply rbind_ext; intros a.
      rewrite (l2g_core m m' _ _ E'). apply rbind_ext; intros b. rewrite (l2g_core m m' _ _ E'). apply rbind_ext; intros c.
      rewrite (l2g_core m m' _ _ E'). apply rbind_ext; intros d. rewrite PO, PI'. reflexivity. }
  unfold global_extent. rewrite CC, CP, PP, E1, E10. reflexivity.
Qed.
Lemma convert_extents : forall m m', convert m = SOk m' tt ->
  global_extent m' (m_localExtent m') = Ok (m_moduleExtent m') /\
  global_extent m' (lay_extent (m_layout m')) = Ok (m_planeExtent m').
Proof.
  intros m m' H.
  assert (C : core m' = core m) by (apply convert_core; now rewrite H).
  unfold convert in H. destruct (local_extent (m_layout m) (m_border m)) as [l|e|]; try discriminate.
  destruct (global_extent (set_local m l) l) as [me|e|] eqn:E1; cbn [rbind] in H; try discriminate.
  destruct (global_extent (set_local m l) (lay_extent (m_layout (set_local m l)))) as [pe|e|] eqn:E2; cbn [rmap] in H; try discriminate.
  injection H as <-. cbn [m_localExtent m_moduleExtent m_planeExtent m_layout set_extents set_local].
  split.
  - rewrite <- E1. apply global_extent_core. reflexivity.
  - rewrite <- E2. cbn [m_layout set_local]. apply global_extent_core. reflexivity.
Qed.

Lemma places_extents : forall m c m', places c -> known_type (m_type m) -> call_module m c = SOk m' tt ->
  global_extent m' (m_localExtent m') = Ok (m_moduleExtent m') /\
  global_extent m' (lay_extent (m_layout m')) = Ok (m_planeExtent m').
Proof.
  intros m c m' P K H. destruct c as [a b|z|a|b|f]; try contradiction; unfold call_module in H.
  - unfold setOffset in H. destruct K as [K|K]; rewrite K in H; cbn [Z.eqb POLAR CARTESIAN Pos.eqb] in H;
      eapply convert_extents; exact H.
  - eapply convert_extents; exact H.
Qed.
Lemma places_settled : forall p type h c, places c -> fst (fold_left side_step h (false, false)) = negative (last_z h) ->
  side_settled p type (h ++ [c]).
Proof.
  intros p type h c P F. left. unfold side_seen. rewrite fold_left_app.
  assert (Z : last_z (h ++ [c]) = last_z h) by (unfold last_z; rewrite fold_left_app; destruct c; try contradiction; reflexivity).
  rewrite Z. destruct c; try contradiction; exact F.
Qed.

Lemma extent_cc_made : forall id p h m l, made p CARTESIAN id h m -> side_settled p CARTESIAN h ->
  extent_cc m l = Ok (
    let mt c := mount (asked CARTESIAN h) (point (lay_type p) c) in
    let a := mt (e0 l, e2 l) in let b := mt (e0 l, e3 l) in let c := mt (e1 l, e2 l) in let d := mt (e1 l, e3 l) in
    mkE (lower (lower (lower (fst a) (fst b)) (fst c)) (fst d))
        (upper (upper (upper (fst a) (fst b)) (fst c)) (fst d))
        (lower (lower (lower (snd a) (snd b)) (snd c)) (snd d))
        (upper (upper (upper (snd a) (snd b)) (snd c)) (snd d))).
Proof.
  intros id p h m l M S.
  assert (L : forall u v, localToGlobal m u v = Ok (mount (asked CARTESIAN h) (point (lay_type p) (u, v)))).
  { intros u v. destruct (localToGlobal_made p CARTESIAN id h m u v (or_introl eq_refl) M S) as (g & E & P).
    rewrite E. f_equal. now rewrite point_cart in P. }
  unfold extent_cc. rewrite !L. reflexivity.
Qed.

Lemma neg_min : forall a b, Rmin a b = - Rmax (- a) (- b).
Proof. intros. unfold Rmin, Rmax. repeat destruct (Rle_dec _ _); lra. Qed.

Lemma hull_cp : forall id p h m l, made p CARTESIAN id h m -> lay_type p = POLAR ->
  sane_extent POLAR l -> two_turns l ->
  exists e, extent_cp m l = Ok e /\ is_hull (area POLAR l (asked CARTESIAN h)) e.
Proof.
  intros id p h m l M TP Sx Tt.
  assert (Ss : side_settled p CARTESIAN h) by (right; intros (T & _); rewrite TP in T; discriminate).
  assert (Sy : not_on_y_axis p CARTESIAN h) by (intros X; discriminate X).
  pose proof Sx as (S1 & S2 & S3). destruct (S3 eq_refl) as [S4 S5]. pose proof PI2_pos as P2.
  set (pl := asked CARTESIAN h) in *.
  unfold extent_cp. rewrite (extent_cc_made id p h m l M Ss). rewrite TP. fold pl. cbv zeta. cbn [rbind].
  destruct (localToGlobal_made p CARTESIAN id h m 0 0 (or_introl eq_refl) M Ss) as (o & Eo & Po).
  rewrite point_cart, TP in Po. fold pl in Po.
  assert (Po' : o = mount pl (0, 0)) by (rewrite Po, point_polar; cbn [fst snd]; now rewrite !Rmult_0_l).
  rewrite Eo. cbn [rbind].
  (* one of the four directions *)
  assert (LF : m_lig m = false).
  { destruct (m_lig m) eqn:L; [|reflexivity]. pose proof (lig_same_type _ _ _ _ _ M L) as X. rewrite TP in X. discriminate X. }
  assert (DIR : forall gx gy, exists r phi, globalToLocal m gx gy = Ok (r, phi) /\ 0 <= phi < 2 * PI /\ 0 <= r /\
    (r * cos phi, r * sin phi) = unmount pl (gx, gy)).
  { intros gx gy. destruct (globalToLocal_made p CARTESIAN id h m gx gy (or_introl eq_refl) M Ss Sy) as ([r phi] & E & P).
    rewrite TP, point_polar, point_cart in P. cbn [fst snd] in P. exists r, phi. split; [exact E|].
    unfold globalToLocal in E. rewrite LF, (md_type _ _ _ _ _ M), (md_layout _ _ _ _ _ M), TP in E.
    cbn [Z.eqb POLAR CARTESIAN Pos.eqb] in E. injection E as <- <-.
    split; [apply polar_back_range|split; [apply sqrt_pos|exact P]]. }
  destruct (DIR (fst o) (snd o + e1 l)) as (rt & pt & Et & Rt & Nt & Pt).
  destruct (DIR (fst o) (snd o - e1 l)) as (rb & pb & Eb & Rb & Nb & Pb).
  destruct (DIR (fst o + e1 l) (snd o)) as (rr & pr & Er & Rr & Nr & Pr).
  destruct (DIR (fst o - e1 l) (snd o)) as (rl & ql & El & Rl & Nl & Ql).
  rewrite Et, Eb, Er, El. cbn [rbind fst snd]. clear DIR Et Eb Er El.
  eexists. split; [reflexivity|].
  (* the mounted point in terms of the directions *)
  set (s := if pl_neg pl then -1 else 1).
  assert (Hs : s * s = 1) by (unfold s; destruct (pl_neg pl); lra).
  assert (MX : forall u v, fst (mount pl (u, v)) = fst o + s * (u * cos (pl_angle pl) - v * sin (pl_angle pl))).
  { intros u v. rewrite Po'. unfold mount, s. cbn [fst snd]. destruct (pl_neg pl); ring. }
  assert (MY : forall u v, snd (mount pl (u, v)) = snd o + (u * sin (pl_angle pl) + v * cos (pl_angle pl))).
  { intros u v. rewrite Po'. unfold mount. cbn [fst snd]. ring. }
  assert (UX : forall dx dy, unmount pl (fst o + dx, snd o + dy) =
    (s * dx * cos (pl_angle pl) + dy * sin (pl_angle pl), dy * cos (pl_angle pl) - s * dx * sin (pl_angle pl))).
  { intros dx dy. rewrite Po'. unfold unmount, mount, s. cbn [fst snd]. destruct (pl_neg pl); f_equal; ring. }
  set (ca := cos (pl_angle pl)) in *. set (sa := sin (pl_angle pl)) in *.
  assert (N1 : ca * ca + sa * sa = 1) by (pose proof (sin2_cos2 (pl_angle pl)) as N; unfold Rsqr in N; fold ca sa in N; lra).
  assert (UNIT : forall r phi dx dy, (dx = 0 \/ dx = 1 \/ dx = -1) -> (dy = 0 \/ dy = 1 \/ dy = -1) -> dx * dx + dy * dy = 1 ->
     0 < e1 l -> 0 <= r ->
     (r * cos phi, r * sin phi) = unmount pl (fst o + e1 l * dx, snd o + e1 l * dy) ->
     cos phi = s * dx * ca + dy * sa /\ sin phi = dy * ca - s * dx * sa).
  { intros r phi dx dy _ _ U E1 Hr E. rewrite UX in E. injection E as Ec Es.
    pose proof (norm_polar r phi Hr) as Nn. rewrite Ec, Es in Nn.
    replace ((s * (e1 l * dx) * ca + e1 l * dy * sa) * (s * (e1 l * dx) * ca + e1 l * dy * sa) +
             (e1 l * dy * ca - s * (e1 l * dx) * sa) * (e1 l * dy * ca - s * (e1 l * dx) * sa))
      with (e1 l * e1 l * ((dx * dx * (s * s) + dy * dy) * (ca * ca + sa * sa))) in Nn by ring.
    rewrite N1, Hs, Rmult_1_r, Rmult_1_r, U, Rmult_1_r, sqrt_square in Nn by lra. subst r.
    split; apply (Rmult_eq_reg_l (e1 l)); lra. }
  assert (ZR : e1 l = 0 -> e0 l = 0) by lra.
  assert (AQ : forall q, area POLAR l pl q <-> exists r t, e0 l <= r <= e1 l /\ e2 l <= t <= e3 l /\
              q = mount pl (r * cos t, r * sin t)).
  { intros q. unfold area. split; intros (r & t & A & B & C); exists r, t; (split; [exact A|split; [exact B|exact C]]). }
  rewrite !lower_min, !upper_max, !neg_min, !Ropp_involutive.
  rewrite !point_polar. cbn [fst snd].
  (* the generic statement: sign sg, coordinate function g, direction phi *)
  assert (GEN : forall (g : R * R -> R) f0 dx dy r phi,
    (dx = 0 \/ dx = 1 \/ dx = -1) -> (dy = 0 \/ dy = 1 \/ dy = -1) -> dx * dx + dy * dy = 1 ->
    (forall u v, g (mount pl (u, v)) = f0 + (u * (s * dx * ca + dy * sa) + v * (dy * ca - s * dx * sa))) ->
    0 <= phi < 2 * PI -> 0 <= r ->
    (r * cos phi, r * sin phi) = unmount pl (fst o + e1 l * dx, snd o + e1 l * dy) ->
    let MM := if in_active l phi then f0 + e1 l else
       Rmax (Rmax (Rmax (g (mount pl (e0 l * cos (e2 l), e0 l * sin (e2 l)))) (g (mount pl (e0 l * cos (e3 l), e0 l * sin (e3 l)))))
            (g (mount pl (e1 l * cos (e2 l), e1 l * sin (e2 l))))) (g (mount pl (e1 l * cos (e3 l), e1 l * sin (e3 l)))) in
    (forall q, area POLAR l pl q -> g q <= MM) /\ (exists q, area POLAR l pl q /\ g q = MM)).
  { intros g f0 dx dy r phi Hdx Hdy Hd Hg Hphi Hr HP MM.
    destruct (Rle_lt_or_eq_dec 0 (e1 l) ltac:(lra)) as [E1p|E1z].
    - destruct (UNIT r phi dx dy Hdx Hdy Hd E1p Hr HP) as [Cp Sp].
      assert (GF : forall a t, g (mount pl (a * cos t, a * sin t)) = f0 + a * cos (t - phi)).
      { intros a t. rewrite Hg, cos_minus, Cp, Sp. ring. }
      unfold MM. rewrite !GF. pose proof (sector_max l phi f0 Sx Tt Hphi) as [B1 B2]. cbv zeta in B1, B2. split.
      + intros q Q. apply (proj1 (AQ q)) in Q. destruct Q as (a & t & A & B & ->). rewrite GF. apply B1; assumption.
      + destruct B2 as (a & t & A & B & C). exists (mount pl (a * cos t, a * sin t)).
        split; [apply (proj2 (AQ _)); exists a, t; auto|]. rewrite GF. exact C.
    - assert (E0z : e0 l = 0) by lra.
      assert (GZ : forall t, g (mount pl (0 * cos t, 0 * sin t)) = f0) by (intros; rewrite Hg; ring).
      assert (MMz : MM = f0).
      { unfold MM. rewrite <- E1z, E0z, !GZ. unfold Rmax. repeat destruct (Rle_dec _ _); destruct (in_active l phi); lra. }
      rewrite MMz. split.
      + intros q Q. apply (proj1 (AQ q)) in Q. destruct Q as (a & t & A & B & ->). assert (a = 0) by lra. subst a. rewrite GZ. lra.
      + exists (mount pl (0 * cos (e2 l), 0 * sin (e2 l))). split; [|apply GZ]. apply (proj2 (AQ _)). exists 0, (e2 l).
        split; [lra|split; [lra|reflexivity]]. }
  assert (HT := GEN snd (snd o) 0 1 rt pt ltac:(auto) ltac:(auto) ltac:(lra) ltac:(intros; cbv beta; rewrite MY; ring) Rt Nt
     ltac:(rewrite Pt; f_equal; f_equal; ring)).
  assert (HB := GEN (fun q => - snd q) (- snd o) 0 (-1) rb pb ltac:(auto) ltac:(auto) ltac:(lra) ltac:(intros; cbv beta; rewrite MY; ring) Rb Nb
     ltac:(rewrite Pb; f_equal; f_equal; ring)).
  assert (HR := GEN fst (fst o) 1 0 rr pr ltac:(auto) ltac:(auto) ltac:(lra) ltac:(intros; cbv beta; rewrite MX; ring) Rr Nr
     ltac:(rewrite Pr; f_equal; f_equal; ring)).
  assert (HL := GEN (fun q => - fst q) (- fst o) (-1) 0 rl ql ltac:(auto) ltac:(auto) ltac:(lra) ltac:(intros; cbv beta; rewrite MX; ring) Rl Nl
     ltac:(rewrite Ql; f_equal; f_equal; ring)).
  cbv zeta in HT, HB, HR, HL. clear GEN UNIT Pt Pb Pr Ql Rt Nt Rb Nb Rr Nr Rl Nl.
  cbv beta in HB, HL.
  assert (FLIP : forall (c : bool) a b, (if c then - a + e1 l else b) = - (if c then a - e1 l else - b)) by (intros [] a b; lra).
  rewrite FLIP in HB, HL.
  destruct HT as [HT1 (qt & QT1 & QT2)]. destruct HB as [HB1 (qb & QB1 & QB2)].
  destruct HR as [HR1 (qr & QR1 & QR2)]. destruct HL as [HL1 (qq & QL1 & QL2)].
  split; [|split; [|split; [|split]]]; cbn [e0 e1 e2 e3].
  - intros q Q. specialize (HT1 q Q). specialize (HB1 q Q). specialize (HR1 q Q). specialize (HL1 q Q).
    apply Ropp_le_cancel in HB1. apply Ropp_le_cancel in HL1. split; [split; [exact HL1|exact HR1]|split; [exact HB1|exact HT1]].
  - exists qq. split; [exact QL1|]. lra.
  - exists qr. split; [exact QR1|]. exact QR2.
  - exists qb. split; [exact QB1|]. lra.
  - exists qt. split; [exact QT1|]. exact QT2.
Qed.

(** After setOffset or setAngle returns, the module extent is the smallest box around the mounted
    active area and the plane extent the smallest box around the mounted pad plane. *)
Lemma extents_cartesian : forall id p f h m c m', module_made id p CARTESIAN f h m -> places c ->
  call_module m c = SOk m' tt ->
  let pl := asked CARTESIAN (h ++ [c]) in
  sane_extent (lay_type p) (getLocalModuleExtent m') -> sane_extent (lay_type p) (lay_extent p) ->
  (lay_type p = POLAR -> two_turns (getLocalModuleExtent m') /\ two_turns (lay_extent p)) ->
  is_hull (area (lay_type p) (getLocalModuleExtent m') pl) (getModuleExtent m') /\
  is_hull (area (lay_type p) (lay_extent p) pl) (module_getPlaneExtent m').
Proof.
  intros id p f h m c m' Hm Pc H pl S1 S2 T. pose proof (made_is _ _ _ _ _ _ Hm) as M.
  assert (M' : made p CARTESIAN id (h ++ [c]) m').
  { eapply made_step; [left; reflexivity|exact M|]. now rewrite H. }
  destruct (places_extents m c m' Pc ltac:(rewrite (md_type _ _ _ _ _ M); left; reflexivity) H) as [E1 E2].
  pose proof (places_settled p CARTESIAN h c Pc (md_side _ _ _ _ _ M)) as Ss.
  unfold getLocalModuleExtent, getModuleExtent, module_getPlaneExtent in *.
  unfold global_extent in E1, E2. rewrite (md_type _ _ _ _ _ M'), (md_layout _ _ _ _ _ M') in E1, E2.
  cbn [Z.eqb POLAR CARTESIAN Pos.eqb] in E1, E2.
  destruct (lay_type_cases p) as [TP|TP]; rewrite TP in *; cbn [Z.eqb POLAR CARTESIAN Pos.eqb] in E1, E2.
  - rewrite (extent_cc_made id p _ m' (m_localExtent m') M' Ss), TP in E1.
    rewrite (extent_cc_made id p _ m' (lay_extent p) M' Ss), TP in E2. injection E1 as <-. injection E2 as <-.
    split; apply hull_cc; assumption.
  - destruct (T eq_refl) as [T1 T2].
    destruct (hull_cp id p _ m' (m_localExtent m') M' TP S1 T1) as (x & X1 & X2).
    destruct (hull_cp id p _ m' (lay_extent p) M' TP S2 T2) as (y & Y1 & Y2).
    rewrite X1 in E1. rewrite Y1 in E2. injection E1 as <-. injection E2 as <-. split; assumption.
Qed.
