(** Proofs about a single TPC module: user-level transforms, distance, inside test, extents. *)
From Coq Require Import ZArith List String Bool Reals Lra Lia.
From Flocq Require Import Core.Raux.
From Verif Require Import Base RBase Trig DiskBase DiskSpec DiskProofs TpcModuleModel TpcModel TpcSpec TpcModuleProofs.
From Verif Require RectSpec RectProofs3 RectProofs4.
Import ListNotations.
Open Scope R_scope.

Lemma local_to_global : forall id p type f h m, module_made id p type f h m -> side_settled p type h ->
  forall c0 c1, exists g, localToGlobal m c0 c1 = Ok g /\
  point type g = mount (asked type h) (point (lay_type p) (c0, c1)).
Proof.
  intros id p type f h m Hm Hs c0 c1.
  exact (localToGlobal_made _ _ _ _ _ c0 c1 (proj1 Hm) (made_is _ _ _ _ _ _ Hm) Hs).
Qed.
Lemma global_to_local : forall id p type f h m, module_made id p type f h m -> side_settled p type h ->
  not_on_y_axis p type h -> forall c0 c1, exists l, globalToLocal m c0 c1 = Ok l /\
  point (lay_type p) l = unmount (asked type h) (point type (c0, c1)).
Proof.
  intros id p type f h m Hm Hs Y c0 c1.
  exact (globalToLocal_made _ _ _ _ _ c0 c1 (proj1 Hm) (made_is _ _ _ _ _ _ Hm) Hs Y).
Qed.
Lemma round_trip_local : forall id p type f h m, module_made id p type f h m -> side_settled p type h ->
  not_on_y_axis p type h -> forall c0 c1 g, localToGlobal m c0 c1 = Ok g ->
  exists l, globalToLocal m (fst g) (snd g) = Ok l /\ point (lay_type p) l = point (lay_type p) (c0, c1).
Proof.
  intros id p type f h m Hm Hs Y c0 c1 [g0 g1] E.
  destruct (local_to_global _ _ _ _ _ _ Hm Hs c0 c1) as (g' & E' & P). rewrite E in E'. injection E' as <-.
  destruct (global_to_local _ _ _ _ _ _ Hm Hs Y g0 g1) as (l & E2 & P2). exists l. split; [exact E2|].
  rewrite P2, P. apply unmount_mount.
Qed.
Lemma round_trip_global : forall id p type f h m, module_made id p type f h m -> side_settled p type h ->
  not_on_y_axis p type h -> forall c0 c1 l, globalToLocal m c0 c1 = Ok l ->
  exists g, localToGlobal m (fst l) (snd l) = Ok g /\ point type g = point type (c0, c1).
Proof.
  intros id p type f h m Hm Hs Y c0 c1 [l0 l1] E.
  destruct (global_to_local _ _ _ _ _ _ Hm Hs Y c0 c1) as (l' & E' & P). rewrite E in E'. injection E' as <-.
  destruct (local_to_global _ _ _ _ _ _ Hm Hs l0 l1) as (g & E2 & P2). exists g. split; [exact E2|].
  rewrite P2, P. apply mount_unmount.
Qed.

(** a module told to be on the negative side only after its last setOffset or setAngle does not
    mirror *)
Lemma side_forgotten : forall id p type f h m c0 c1, module_made id p type f h m -> at_origin p type h ->
  side_seen h = false -> negative (last_z h) = true ->
  localToGlobal m c0 c1 = Ok (c0, c1) /\ globalToLocal m c0 c1 = Ok (c0, c1) /\
  (fst (point type (c0, c1)) <> 0 ->
   point type (c0, c1) <> mount (asked type h) (point (lay_type p) (c0, c1))).
Proof.
  intros id p type f h m c0 c1 Hm (T & A & O) S N. pose proof (proj1 Hm) as K. apply made_is in Hm.
  assert (L : m_lig m = true).
  { rewrite (md_lig _ _ _ _ _ Hm), T, A, O, S, Z.eqb_refl. cbn [fst snd].
    destruct (Reqb_spec 0 0); [reflexivity|lra]. }
  unfold localToGlobal, globalToLocal. rewrite L. split; [reflexivity|split; [reflexivity|]].
  intros X E. rewrite <- T in E. unfold mount, asked in E. cbn [pl_angle pl_x pl_y pl_neg] in E.
  rewrite A, O, N, cos_0, sin_0 in E.
  assert (P : point type (0, 0) = (0, 0)).
  { destruct K as [-> | ->]; [reflexivity|]. rewrite point_polar. cbn. now rewrite !Rmult_0_l. }
  rewrite P in E. apply (f_equal fst) in E. cbn [fst snd] in E. apply X. lra.
Qed.

(** ** wrapping the local angle *)
Lemma wrap_down_ge_id : forall hi phi, phi < hi -> wrap_down_ge hi phi = phi.
Proof.
  intros hi phi H. unfold wrap_down_ge. pose proof PI2_pos.
  assert (X : (phi - hi) / (2 * PI) < 0).
  { apply Rmult_lt_reg_r with (2 * PI); auto. unfold Rdiv. rewrite Rmult_assoc, Rinv_l; lra. }
  assert (F : (Zfloor ((phi - hi) / (2 * PI)) < 0)%Z).
  { apply lt_IZR. pose proof (Zfloor_lb ((phi - hi) / (2 * PI))). lra. }
  rewrite Z.max_l by lia. lra.
Qed.
Lemma wrap_down_ge_bounds : forall hi phi, wrap_down_ge hi phi < hi /\ (hi <= phi -> hi - 2 * PI <= wrap_down_ge hi phi).
Proof.
  intros hi phi. pose proof PI2_pos. destruct (Rlt_le_dec phi hi).
  - rewrite wrap_down_ge_id by auto. split; lra.
  - unfold wrap_down_ge. set (x := (phi - hi) / (2 * PI)).
    assert (Hx : 0 <= x) by (apply Rmult_le_pos; [lra|left; now apply Rinv_0_lt_compat]).
    pose proof (Zfloor_lb x) as Hl. pose proof (Zfloor_ub x) as Hu.
    assert (Hz : (0 <= Zfloor x)%Z) by (apply (Zfloor_lub 0); simpl; lra).
    rewrite Z.max_r by lia. rewrite plus_IZR.
    assert (E : phi - hi = 2 * PI * x) by (unfold x; field; lra).
    set (fx := IZR (Zfloor x)) in *. split; [|intros _]; nra.
Qed.
Lemma wrap_down_ge_step : forall hi phi, hi <= phi -> wrap_down_ge hi phi = wrap_down_ge hi (phi - 2 * PI).
Proof.
  intros hi phi H. pose proof PI2_pos. unfold wrap_down_ge. set (x := (phi - hi) / (2 * PI)).
  replace ((phi - 2 * PI - hi) / (2 * PI)) with (x + IZR (-1)) by (unfold x; field; lra).
  assert (Hx : 0 <= x) by (apply Rmult_le_pos; [lra|left; now apply Rinv_0_lt_compat]).
  assert (Hz : (0 <= Zfloor x)%Z) by (apply (Zfloor_lub 0); simpl; lra).
  assert (E : Zfloor (x + IZR (-1)) = (Zfloor x - 1)%Z).
  { apply Zfloor_imp. pose proof (Zfloor_lb x). pose proof (Zfloor_ub x). rewrite minus_IZR.
    replace (Zfloor x - 1 + 1)%Z with (Zfloor x) by lia. simpl. lra. }
  rewrite E. rewrite !Z.max_r by lia. replace (Zfloor x - 1 + 1)%Z with (Zfloor x) by lia.
  rewrite plus_IZR. lra.
Qed.
(** the loop in the program ends, with this value *)
Lemma loop_down_ge_result : forall hi phi, exists n, forall fuel, (n <= fuel)%nat ->
  loop_down_ge fuel hi phi = Some (wrap_down_ge hi phi).
Proof.
  intros hi phi. exists (Z.to_nat (Z.max 0 (Zfloor ((phi - hi) / (2 * PI)) + 1))).
  intros fuel; revert phi. pose proof PI2_pos as P2.
  induction fuel as [|fu IH]; intros phi Hn; simpl; destruct (Rleb_spec hi phi).
  - exfalso. assert (0 <= (phi - hi) / (2 * PI)) by (apply Rmult_le_pos; [lra|left; now apply Rinv_0_lt_compat]).
    assert (0 <= Zfloor ((phi - hi) / (2 * PI)))%Z by (apply (Zfloor_lub 0); simpl; lra). lia.
  - now rewrite wrap_down_ge_id.
  - rewrite IH; [now rewrite <- wrap_down_ge_step|].
    replace ((phi - 2 * PI - hi) / (2 * PI)) with ((phi - hi) / (2 * PI) + IZR (-1)) by (field; lra).
    set (x := (phi - hi) / (2 * PI)) in *.
    assert (E : Zfloor (x + IZR (-1)) = (Zfloor x - 1)%Z).
    { apply Zfloor_imp. pose proof (Zfloor_lb x). pose proof (Zfloor_ub x). rewrite minus_IZR.
      replace (Zfloor x - 1 + 1)%Z with (Zfloor x) by lia. simpl. lra. }
    rewrite E. lia.
  - now rewrite wrap_down_ge_id.
Qed.

Definition wrapped (lo c1 : R) : R := wrap_down_ge (lo + 2 * PI) (wrap_up lo c1).
Lemma wrapped_range : forall lo c1, lo <= wrapped lo c1 < lo + 2 * PI.
Proof.
  intros. unfold wrapped. pose proof PI2_pos. pose proof (wrap_up_bounds lo c1) as [B1 B2].
  pose proof (wrap_down_ge_bounds (lo + 2 * PI) (wrap_up lo c1)) as [D1 D2]. split; [|lra].
  destruct (Rlt_le_dec (wrap_up lo c1) (lo + 2 * PI)); [rewrite wrap_down_ge_id; lra|].
  specialize (D2 r). lra.
Qed.
Lemma wrapped_same : forall lo c1, same_angle (wrapped lo c1) c1.
Proof.
  intros. unfold wrapped, wrap_down_ge, wrap_up.
  set (j := Z.max 0 (Zceil ((lo - c1) / (2 * PI)))). set (w := c1 + 2 * PI * IZR j).
  set (k := Z.max 0 (Zfloor ((w - (lo + 2 * PI)) / (2 * PI)) + 1)).
  exists (j - k)%Z. rewrite minus_IZR. unfold w. lra.
Qed.

(** ** distance *)
Lemma box_dist : forall l x y, e0 l <= e1 l -> e2 l <= e3 l ->
  let d := if (Rleb (e2 l) y && Rleb y (e3 l))%bool then
      if Rltb x (e0 l) then e0 l - x else if Rleb x (e1 l) then 0 else x - e1 l
    else
      if Rltb y (e2 l) then
        if Rltb x (e0 l) then sqrt ((e0 l - x) * (e0 l - x) + (e2 l - y) * (e2 l - y))
        else if Rleb x (e1 l) then e2 l - y
        else sqrt ((x - e1 l) * (x - e1 l) + (e2 l - y) * (e2 l - y))
      else
        if Rltb x (e0 l) then sqrt ((e0 l - x) * (e0 l - x) + (y - e3 l) * (y - e3 l))
        else if Rleb x (e1 l) then y - e3 l
        else sqrt ((x - e1 l) * (x - e1 l) + (y - e3 l) * (y - e3 l)) in
  exists a b, e0 l <= a <= e1 l /\ e2 l <= b <= e3 l /\ RectSpec.dist2 x y a b = d /\
    forall u v, e0 l <= u <= e1 l -> e2 l <= v <= e3 l -> d <= RectSpec.dist2 x y u v.
Proof.
  intros l x y H1 H2 d.
  set (a := if Rltb x (e0 l) then e0 l else if Rleb x (e1 l) then x else e1 l).
  set (b := if Rltb y (e2 l) then e2 l else if Rleb y (e3 l) then y else e3 l).
  assert (Ha : e0 l <= a <= e1 l) by (unfold a; repeat rcase; lra).
  assert (Hb : e2 l <= b <= e3 l) by (unfold b; repeat rcase; lra).
  assert (Hd : RectSpec.dist2 x y a b = d).
  { unfold d, a, b, RectSpec.dist2. destruct (Rleb_spec (e2 l) y); destruct (Rleb_spec y (e3 l)); cbn [andb].
    - destruct (Rltb_spec y (e2 l)); [lra|]. replace (y - y) with 0 by lra.
      rewrite Rmult_0_l, Rplus_0_r. destruct (Rltb_spec x (e0 l)); [|destruct (Rleb_spec x (e1 l))].
      + replace ((x - e0 l) * (x - e0 l)) with ((e0 l - x) * (e0 l - x)) by ring. apply sqrt_square. lra.
      + replace (x - x) with 0 by lra. rewrite Rmult_0_l. apply sqrt_0.
      + apply sqrt_square. lra.
    - destruct (Rltb_spec y (e2 l)); [lra|].
      destruct (Rltb_spec x (e0 l)); [|destruct (Rleb_spec x (e1 l))].
      + f_equal. ring.
      + replace (x - x) with 0 by lra. rewrite Rmult_0_l, Rplus_0_l. apply sqrt_square. lra.
      + f_equal.
    - destruct (Rltb_spec y (e2 l)); [|lra].
      destruct (Rltb_spec x (e0 l)); [|destruct (Rleb_spec x (e1 l))].
      + f_equal. ring.
      + replace (x - x) with 0 by lra. rewrite Rmult_0_l, Rplus_0_l.
        replace ((y - e2 l) * (y - e2 l)) with ((e2 l - y) * (e2 l - y)) by ring. apply sqrt_square. lra.
      + f_equal. ring.
    - lra. }
  exists a, b. split; [exact Ha|split; [exact Hb|split; [exact Hd|]]].
  intros u v Hu Hv. rewrite <- Hd. unfold RectSpec.dist2. apply sqrt_le_1_alt.
  assert (A : (x - a) * (x - a) <= (x - u) * (x - u)).
  { unfold a. repeat rcase; try nra. replace ((x - x) * (x - x)) with 0 by ring. apply Rle_0_sqr. }
  assert (B : (y - b) * (y - b) <= (y - v) * (y - v)).
  { unfold b. repeat rcase; try nra. replace ((y - y) * (y - y)) with 0 by ring. apply Rle_0_sqr. }
  lra.
Qed.

Lemma sector_dist_l : forall l r y, sane_extent POLAR l -> 0 <= r -> e2 l <= y < e2 l + 2 * PI ->
  is_sector_dist r y (e0 l) (e1 l) (e2 l) (e3 l)
    (if (Rleb (e2 l) y && Rleb y (e3 l))%bool then
       if Rltb r (e0 l) then e0 l - r else if Rleb r (e1 l) then 0 else r - e1 l
     else
       let d1 := module_edge_distance l r y (e2 l) in
       let d2 := module_edge_distance l r y (e3 l) in
       if Rltb d1 d2 then d1 else d2).
Proof.
  intros l r y (S1 & S2 & S3) Hr Hy. destruct (S3 eq_refl) as [S4 S5]. pose proof PI2_pos.
  pose proof (disk_distance_euclid ((e0 l + e1 l) / 2, (e2 l + e3 l) / 2) (e1 l - e0 l) (e3 l - e2 l) r y) as D.
  cbn [fst snd] in D.
  replace ((e0 l + e1 l) / 2 - (e1 l - e0 l) / 2) with (e0 l) in D by lra.
  replace ((e0 l + e1 l) / 2 + (e1 l - e0 l) / 2) with (e1 l) in D by lra.
  replace ((e2 l + e3 l) / 2 - (e3 l - e2 l) / 2) with (e2 l) in D by lra.
  replace ((e2 l + e3 l) / 2 + (e3 l - e2 l) / 2) with (e3 l) in D by lra.
  assert (E : disk_distance ((e0 l + e1 l) / 2, (e2 l + e3 l) / 2) (e1 l - e0 l) (e3 l - e2 l) r y =
    (if (Rleb (e2 l) y && Rleb y (e3 l))%bool then
       if Rltb r (e0 l) then e0 l - r else if Rleb r (e1 l) then 0 else r - e1 l
     else
       let d1 := module_edge_distance l r y (e2 l) in
       let d2 := module_edge_distance l r y (e3 l) in
       if Rltb d1 d2 then d1 else d2)).
  { unfold disk_distance. cbn [fst snd].
    replace ((e0 l + e1 l) / 2 - (e1 l - e0 l) / 2) with (e0 l) by lra.
    replace ((e0 l + e1 l) / 2 + (e1 l - e0 l) / 2) with (e1 l) by lra.
    replace ((e2 l + e3 l) / 2 - (e3 l - e2 l) / 2) with (e2 l) by lra.
    replace ((e2 l + e3 l) / 2 + (e3 l - e2 l) / 2) with (e3 l) by lra.
    destruct (Rleb (e2 l) y && Rleb y (e3 l))%bool; [|reflexivity].
    destruct (Rltb_spec r (e0 l)); destruct (Rleb_spec (e0 l) r); destruct (Rleb_spec r (e1 l)); cbn [andb]; lra. }
  rewrite <- E. apply D; lra.
Qed.

Lemma globalToLocal_radius : forall m c0 c1 l, globalToLocal m c0 c1 = Ok l ->
  lay_type (m_layout m) = POLAR -> (m_type m = POLAR -> 0 <= c0) -> m_lig m = false \/ m_type m = POLAR -> 0 <= fst l.
Proof.
  intros m c0 c1 l H P R0 L. unfold globalToLocal in H. destruct (m_lig m).
  - injection H as <-. cbn. destruct L as [L|L]; [discriminate|auto].
  - rewrite P in H. destruct (Z.eqb_spec (m_type m) POLAR) as [E|E].
    + destruct (Reqb (m_offc0 m) 0); cbn [andb Z.eqb POLAR Pos.eqb] in H; injection H as <-; cbn [fst]; auto. apply sqrt_pos.
    + destruct (m_type m =? CARTESIAN)%Z; [|discriminate]. cbn [Z.eqb POLAR Pos.eqb] in H. injection H as <-. cbn [fst]. apply sqrt_pos.
Qed.
Lemma lig_same_type : forall p type id h m, made p type id h m -> m_lig m = true -> type = lay_type p.
Proof.
  intros p type id h m Mm L. rewrite (md_lig _ _ _ _ _ Mm) in L. rewrite !andb_true_iff, Z.eqb_eq in L. tauto.
Qed.

Lemma module_distance : forall id p type f h m, module_made id p type f h m -> side_settled p type h ->
  not_on_y_axis p type h -> sane_extent (lay_type p) (getLocalModuleExtent m) ->
  forall c0 c1, (type = POLAR -> 0 <= c0) ->
  exists d, getDistanceToModule m c0 c1 = Ok d /\
    is_dist (area (lay_type p) (getLocalModuleExtent m) (asked type h)) (point type (c0, c1)) d.
Proof.
  intros id p type f h m Hm Hs Hy Hx c0 c1 Hr.
  destruct (global_to_local id p type f h m Hm Hs Hy c0 c1) as ([t0 t1] & E & P).
  pose proof (made_is _ _ _ _ _ _ Hm) as M. unfold getDistanceToModule. rewrite E. cbn [rmap fst snd].
  eexists. split; [reflexivity|]. unfold getLocalModuleExtent in *. rewrite (md_layout _ _ _ _ _ M).
  assert (ISO : forall q, pt_dist (point type (c0, c1)) (mount (asked type h) q) = pt_dist (point (lay_type p) (t0, t1)) q).
  { intros q. rewrite P, <- (mount_unmount (asked type h) (point type (c0, c1))) at 1. apply mount_dist. }
  unfold wrap_local. rewrite (md_layout _ _ _ _ _ M).
  destruct (lay_type_cases p) as [TP|TP]; rewrite TP in *; cbn [Z.eqb CARTESIAN POLAR Pos.eqb].
  - destruct Hx as (S1 & S2 & _). destruct (box_dist (m_localExtent m) t0 t1 S1 S2) as (a & b & A & B & D & Q).
    split.
    + exists (mount (asked type h) (a, b)). split; [exists a, b; auto|]. rewrite ISO, !point_cart. exact D.
    + intros s (u & v & U & V & ->). rewrite ISO, !point_cart. apply Q; assumption.
  - fold (wrapped (e2 (m_localExtent m)) t1). set (l := m_localExtent m) in *.
    assert (R0 : 0 <= t0).
    { apply (globalToLocal_radius m c0 c1 (t0, t1) E).
      - now rewrite (md_layout _ _ _ _ _ M).
      - now rewrite (md_type _ _ _ _ _ M).
      - destruct (m_lig m) eqn:L; [right|left; reflexivity].
        rewrite (md_type _ _ _ _ _ M), (lig_same_type _ _ _ _ _ M L). exact TP. }
    pose proof (sector_dist_l l t0 (wrapped (e2 l) t1) Hx R0 (wrapped_range _ _)) as [D Q].
    assert (PE : forall q, pt_dist (point POLAR (t0, t1)) (point POLAR q) = pdist t0 (wrapped (e2 l) t1) (fst q) (snd q)).
    { intros q. rewrite !point_polar. cbn [fst snd].
      rewrite (same_point t0 t1 (wrapped (e2 l) t1)) by (apply same_sym, wrapped_same). reflexivity. }
    split.
    + destruct D as (r' & p' & A & B & D). exists (mount (asked type h) (point POLAR (r', p'))).
      split; [exists r', p'; auto|]. rewrite ISO, PE. exact D.
    + intros s (u & v & U & V & ->). rewrite ISO, PE. apply Q; assumption.
Qed.

Lemma polar_same : forall r a r' a', 0 <= r -> 0 < r' -> point POLAR (r, a) = point POLAR (r', a') ->
  r = r' /\ cos a = cos a' /\ sin a = sin a'.
Proof.
  intros r a r' a' Hr Hr' E. rewrite !point_polar in E. cbn [fst snd] in E. injection E as E1 E2.
  pose proof (norm_polar r a Hr) as N. pose proof (norm_polar r' a' (Rlt_le _ _ Hr')) as N'.
  rewrite E1, E2, N' in N. subst r'. split; [reflexivity|]. split; [apply (Rmult_eq_reg_l r)|apply (Rmult_eq_reg_l r)]; lra.
Qed.

Lemma module_inside : forall id p type f h m, module_made id p type f h m -> side_settled p type h ->
  not_on_y_axis p type h -> sane_extent (lay_type p) (getLocalModuleExtent m) ->
  forall c0 c1, (type = POLAR -> 0 <= c0) ->
  (lay_type p = POLAR -> 0 < e0 (getLocalModuleExtent m) \/ unmount (asked type h) (point type (c0, c1)) <> (0, 0)) ->
  exists b, TpcModuleModel.isInsideModule m c0 c1 = Ok b /\
    (b = true <-> area (lay_type p) (getLocalModuleExtent m) (asked type h) (point type (c0, c1))).
Proof.
  intros id p type f h m Hm Hs Hy Hx c0 c1 Hr Hz.
  destruct (global_to_local id p type f h m Hm Hs Hy c0 c1) as ([t0 t1] & E & P).
  pose proof (made_is _ _ _ _ _ _ Hm) as M. unfold TpcModuleModel.isInsideModule. rewrite E. cbn [rmap fst snd].
  eexists. split; [reflexivity|]. unfold getLocalModuleExtent in *.
  unfold wrap_local. rewrite (md_layout _ _ _ _ _ M). set (l := m_localExtent m) in *.
  assert (AR : area (lay_type p) l (asked type h) (point type (c0, c1)) <->
    exists u v, e0 l <= u <= e1 l /\ e2 l <= v <= e3 l /\ point (lay_type p) (t0, t1) = point (lay_type p) (u, v)).
  { split; intros (u & v & U & V & Q); exists u, v; (split; [exact U|split; [exact V|]]).
    - now rewrite P, Q, unmount_mount.
    - rewrite <- Q, P, mount_unmount. reflexivity. }
  rewrite AR. rewrite !andb_true_iff, !Rleb_true.
  destruct (lay_type_cases p) as [TP|TP]; rewrite TP in *; cbn [Z.eqb CARTESIAN POLAR Pos.eqb].
  - split.
    + intros H. exists t0, t1. rewrite point_cart. split; [lra|split; [lra|reflexivity]].
    + intros (u & v & U & V & Q). rewrite !point_cart in Q. injection Q as -> ->. lra.
  - fold (wrapped (e2 l) t1). pose proof (wrapped_range (e2 l) t1) as W. pose proof (wrapped_same (e2 l) t1) as WS.
    set (w := wrapped (e2 l) t1) in *.
    assert (R0 : 0 <= t0).
    { apply (globalToLocal_radius m c0 c1 (t0, t1) E).
      - now rewrite (md_layout _ _ _ _ _ M).
      - now rewrite (md_type _ _ _ _ _ M).
      - destruct (m_lig m) eqn:L; [right|left; reflexivity].
        rewrite (md_type _ _ _ _ _ M), (lig_same_type _ _ _ _ _ M L). exact TP. }
    assert (PW : point POLAR (t0, t1) = point POLAR (t0, w)).
    { rewrite !point_polar. cbn [fst snd]. apply same_point, same_sym, WS. }
    split.
    + intros H. exists t0, w. split; [lra|split; [lra|exact PW]].
    + intros (u & v & U & V & Q). rewrite PW in Q. destruct Hx as (X1 & X2 & X3). destruct (X3 eq_refl) as [X4 X5].
      assert (UP : 0 < u).
      { destruct (Hz eq_refl) as [Z|Z]; [lra|]. destruct (Req_dec u 0) as [U0|U0]; [|lra]. exfalso. apply Z.
        rewrite <- P, PW, Q, U0, point_polar. cbn. now rewrite !Rmult_0_l. }
      destruct (polar_same _ _ _ _ R0 UP Q) as (-> & C & S).
      destruct (Req_dec (v - w) (2 * PI)) as [V2|V2]; [lra|].
      assert (w = v) by (apply angle_unique; auto; lra). subst v. lra.
Qed.
