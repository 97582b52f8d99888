From Coq Require Import ZArith List Bool Reals Lra Lia Psatz.
From Flocq Require Import Core.
From Verif Require Import Base RBase VecModel MatModel MatSpec.
Import ListNotations.
Open Scope R_scope.

Lemma node_step : forall a k, node a k = ax_min a + IZR k * ax_step a.
Proof. intros. unfold node, ax_step. destruct (ax_n a =? 0)%Z; ring. Qed.
Lemma part_is : forall a, node a 1 - node a 0 = ax_step a.
Proof. intros. rewrite !node_step. ring. Qed.
Lemma step_pos : forall a, axis_ok a -> 2 / 100000 < ax_step a.
Proof. intros a (A & B & C & D). unfold ax_step. destruct (Z.eqb_spec (ax_n a) 0); [lra|apply D; lia]. Qed.
Lemma node_last : forall a, axis_ok a -> (0 < ax_n a)%Z -> ax_max a = node a (ax_n a).
Proof.
  intros a (A & B & C & D) H. unfold node. destruct (Z.eqb_spec (ax_n a) 0); [lia|]. field. apply not_0_IZR. lia.
Qed.
Lemma node_le : forall a k, axis_ok a -> (0 <= k)%Z -> (node a k <= ax_max a <-> (k <= ax_n a)%Z).
Proof.
  intros a k H Hk. pose proof (step_pos a H) as S. pose proof H as (A & B & C & D). destruct (Z.eq_dec (ax_n a) 0) as [E|E].
  - unfold node. rewrite E. cbn [Z.eqb]. specialize (C E). split; intros L.
    + assert (IZR k < 1) by lra. apply lt_IZR in H0. lia.
    + assert (k = 0%Z) by lia. subst. lra.
  - rewrite (node_last a) by (assumption || lia). rewrite !node_step. split; intros L.
    + apply le_IZR. apply Rmult_le_reg_r with (ax_step a); lra.
    + apply IZR_le in L. assert (IZR k * ax_step a <= IZR (ax_n a) * ax_step a) by (apply Rmult_le_compat_r; lra). lra.
Qed.
Lemma node_min : forall a k, axis_ok a -> (0 <= k)%Z -> ax_min a <= node a k.
Proof. intros a k H Hk. pose proof (step_pos a H). rewrite node_step. apply IZR_le in Hk. assert (0 <= IZR k * ax_step a) by (apply Rmult_le_pos; lra). lra. Qed.

(** ** building *)
Lemma for_nodes : forall A (P : Z -> A -> Prop) (bad : Prop) (a : axis) (body : R -> A -> option (result A)), axis_ok a ->
  (forall k s, in_axis a k -> P k s ->
     (exists s', body (node a k) s = Some (Ok s') /\ P (k + 1)%Z s') \/ (exists e, body (node a k) s = Some (Throw e) /\ bad)) ->
  forall fuel s, P 0%Z s -> (Z.to_nat (ax_n a) + 2 <= fuel)%nat ->
  (exists s', over fuel a body s = Some (Ok s') /\ P (ax_n a + 1)%Z s') \/ (exists e, over fuel a body s = Some (Throw e) /\ bad).
Proof.
  intros A P bad a body HA HB fuel s Hs HF. unfold over.
  assert (G : forall fuel k s, (0 <= k <= ax_n a + 1)%Z -> (Z.to_nat (ax_n a + 1 - k) < fuel)%nat -> P k s ->
    (exists s', for_loop fuel (node a k) (ax_max a) (ax_step a) body s = Some (Ok s') /\ P (ax_n a + 1)%Z s') \/
    (exists e, for_loop fuel (node a k) (ax_max a) (ax_step a) body s = Some (Throw e) /\ bad)).
  { clear fuel s Hs HF. induction fuel as [|fuel IH]; intros k s Hk HF Hs; [lia|]. cbn [for_loop].
    pose proof (node_le a k HA ltac:(lia)) as NL. destruct (Rleb_spec (node a k) (ax_max a)) as [L|L].
    - apply NL in L. destruct (HB k s ltac:(unfold in_axis; lia) Hs) as [(s' & E & Hs')|(e & E & Hb)]; rewrite E; [|right; exists e; auto].
      replace (node a k + ax_step a) with (node a (k + 1)) by (rewrite !node_step, plus_IZR; ring). apply IH; [lia|lia|assumption].
    - assert (k = (ax_n a + 1)%Z). { destruct (Z_le_gt_dec k (ax_n a)) as [Q|Q]; [apply NL in Q; lra|lia]. } subst k. left. exists s. auto. }
  replace (ax_min a) with (node a 0) by (rewrite node_step; ring). apply G; [pose proof HA as (? & _); lia|pose proof HA as (? & _); lia|assumption].
Qed.
Lemma grid_index_node : forall a k, axis_ok a -> in_axis a k -> grid_index1 a (node a k) = Ok k.
Proof.
  intros a k H Hk. pose proof (step_pos a H) as S. unfold grid_index1. destruct (Reqb_spec (ax_step a) 0); [lra|].
  replace ((node a k - ax_min a) / ax_step a + 1 / 2) with (IZR k + 1 / 2) by (rewrite node_step; field; assumption).
  unfold to_int. unfold in_axis in Hk. pose proof (IZR_le 0 k ltac:(lia)) as K0.
  assert (T : Ztrunc (IZR k + 1 / 2) = k). { rewrite Ztrunc_floor by lra. apply Zfloor_imp. rewrite plus_IZR. lra. }
  rewrite T. destruct H as (H & _). unfold int_okb. destruct (Z.leb_spec (-2147483648) k); [|lia]. destruct (Z.leb_spec k 2147483647); [reflexivity|lia].
Qed.
Lemma node_inside : forall a k, axis_ok a -> in_axis a k -> outside1 a (node a k) = false.
Proof.
  intros a k H Hk. unfold outside1. pose proof (node_min a k H ltac:(unfold in_axis in Hk; lia)). pose proof (proj2 (node_le a k H ltac:(unfold in_axis in Hk; lia)) ltac:(unfold in_axis in Hk; lia)).
  apply orb_false_iff. rewrite !Rltb_false. lra.
Qed.
Lemma index_node : forall m i j k, axis_ok (mm_x m) -> axis_ok (mm_y m) -> axis_ok (mm_z m) -> in_axis (mm_x m) i -> in_axis (mm_y m) j -> in_axis (mm_z m) k ->
  calculateGridIndex m (node (mm_x m) i) (node (mm_y m) j) (node (mm_z m) k) = Ok (i, j, k).
Proof.
  intros. unfold calculateGridIndex. rewrite !node_inside by assumption. cbn [orb]. rewrite !grid_index_node by assumption. reflexivity.
Qed.
Lemma inb_true : forall m i j k, mm_inb m i j k = true <-> in_axis (mm_x m) i /\ in_axis (mm_y m) j /\ in_axis (mm_z m) k.
Proof. intros. unfold mm_inb, in_axis. rewrite !andb_true_iff, !Z.leb_le. lia. Qed.

Definition budget_bad (nrad nint : vec -> result R) (p : vec) : Prop := p <> vzero /\ ((exists e, nrad p = Throw e) \/ (exists e, nint p = Throw e)).
Lemma budget_cases : forall nrad nint p, (forall q, nrad q <> UB) -> (forall q, nint q <> UB) ->
  (exists v, budget nrad nint p = Ok v /\ material nrad nint p v) \/ (exists e, budget nrad nint p = Throw e /\ budget_bad nrad nint p).
Proof.
  intros nrad nint p U1 U2. unfold budget. destruct (veqb p vzero) eqn:E.
  - left. exists (0, 0). split; [reflexivity|]. left. split; [|reflexivity]. destruct p. unfold veqb, vzero in *. cbn in *. rewrite !andb_true_iff, !Reqb_true in E. f_equal; lra.
  - assert (N : p <> vzero). { intros ->. unfold veqb, vzero in E. cbn in E. destruct (Reqb_spec 0 0); [discriminate|lra]. }
    specialize (U1 p). specialize (U2 p). destruct (nrad p) as [r|e|] eqn:R1; cbn [rbind]; [|right; exists e; split; [reflexivity|split; [exact N|left; exists e; exact R1]]|contradiction].
    destruct (nint p) as [i|e|] eqn:R2; cbn [rbind]; [|right; exists e; split; [reflexivity|split; [exact N|right; exists e; exact R2]]|contradiction].
    left. exists (r, i). split; [reflexivity|]. right. auto.
Qed.
Definition before (i j k i' j' k' : Z) : Prop := (i' < i \/ i' = i /\ (j' < j \/ j' = j /\ k' < k))%Z.
Definition filled (nrad nint : vec -> result R) (coord : Z) (x y z : axis) (i j k : Z) (m : mmap) : Prop :=
  mm_x m = x /\ mm_y m = y /\ mm_z m = z /\
  forall i' j' k', in_axis x i' -> in_axis y j' -> in_axis z k' -> before i j k i' j' k' ->
  material nrad nint (to_cartesian coord (node x i') (node y j') (node z k')) (mm_val m i' j' k').
Lemma fill_one_step : forall nrad nint coord x y z i j k m, (forall q, nrad q <> UB) -> (forall q, nint q <> UB) ->
  axis_ok x -> axis_ok y -> axis_ok z -> in_axis x i -> in_axis y j -> in_axis z k -> filled nrad nint coord x y z i j k m ->
  (exists m', fill_one nrad nint coord (node x i) (node y j) (node z k) m = Ok m' /\ filled nrad nint coord x y z i j (k + 1) m') \/
  (exists e, fill_one nrad nint coord (node x i) (node y j) (node z k) m = Throw e /\ budget_bad nrad nint (to_cartesian coord (node x i) (node y j) (node z k))).
Proof.
  intros nrad nint coord x y z i j k m U1 U2 HX HY HZ Hi Hj Hk (E1 & E2 & E3 & F). unfold fill_one.
  destruct (budget_cases nrad nint (to_cartesian coord (node x i) (node y j) (node z k)) U1 U2) as [(v & B & M)|(e & B & M)]; rewrite B; cbn [rbind]; [|right; eauto].
  left. subst x y z. rewrite index_node by assumption. cbn [rbind]. unfold mm_set. rewrite (proj2 (inb_true m i j k)) by auto.
  eexists. split; [reflexivity|]. split; [reflexivity|]. split; [reflexivity|]. split; [reflexivity|]. cbn [mm_val mm_x mm_y mm_z].
  intros i' j' k' Hi' Hj' Hk' Hb. destruct (Z.eqb_spec i' i), (Z.eqb_spec j' j), (Z.eqb_spec k' k); cbn [andb]; subst; try exact M; apply F; try assumption; unfold before in *; lia.
Qed.
Lemma position_is : forall x y z coord a b c, domain_ok x y z coord -> position coord a b c = to_cartesian coord a b c.
Proof. intros x y z coord a b c [->|[(-> & _)|(-> & _)]]; reflexivity. Qed.
Lemma bad_args_ok' : forall x y z coord, axis_ok x -> axis_ok y -> ax_min z <= ax_max z -> (0 <= ax_n z)%Z -> domain_ok x y z coord -> bad_args x y z coord = false.
Proof.
  intros x y z coord (X1 & X2 & _) (Y1 & Y2 & _) Z1 Z2 D. unfold bad_args. pose proof PI_RGT_0.
  rewrite !orb_false_iff, !Rltb_false, !Z.ltb_ge. repeat split; try lra; try lia.
  destruct D as [->|[(-> & A & B & C)|(-> & A & B & C & D & E)]]; unfold CARTESIAN, CYLINDRICAL, SPHERICAL; cbn [Z.eqb Pos.eqb];
  [reflexivity|rewrite !orb_false_iff, !Rltb_false; lra|rewrite !orb_false_iff, !Rltb_false; lra].
Qed.
Lemma bad_args_ok : forall x y z coord, axis_ok x -> axis_ok y -> axis_ok z -> domain_ok x y z coord -> bad_args x y z coord = false.
Proof. intros x y z coord X Y (Z1 & Z2 & _) D. apply bad_args_ok'; try assumption. lia. Qed.
Lemma map_built : forall nrad nint x y z coord, (forall q, nrad q <> UB) -> (forall q, nint q <> UB) ->
  axis_ok x -> axis_ok y -> axis_ok z -> domain_ok x y z coord ->
  exists enough, forall fuel, (enough <= fuel)%nat ->
  (exists m, new_map fuel nrad nint x y z coord = Some (Ok m) /\ mm_x m = x /\ mm_y m = y /\ mm_z m = z /\ holds_material nrad nint coord m) \/
  (exists e i j k, new_map fuel nrad nint x y z coord = Some (Throw e) /\ in_axis x i /\ in_axis y j /\ in_axis z k /\
     let p := position coord (node x i) (node y j) (node z k) in p <> vzero /\ ((exists e, nrad p = Throw e) \/ (exists e, nint p = Throw e))).
Proof.
  intros nrad nint x y z coord U1 U2 HX HY HZ D.
  exists (Z.to_nat (ax_n x) + Z.to_nat (ax_n y) + Z.to_nat (ax_n z) + 2)%nat. intros fuel HF. unfold new_map. rewrite bad_args_ok by assumption.
  set (bad := exists i j k, in_axis x i /\ in_axis y j /\ in_axis z k /\ budget_bad nrad nint (to_cartesian coord (node x i) (node y j) (node z k))).
  destruct (for_nodes mmap (fun i m => filled nrad nint coord x y z i 0 0 m) bad x
    (fun vx => over fuel y (fun vy => over fuel z (fun vz m => Some (fill_one nrad nint coord vx vy vz m)))) HX) with (fuel := fuel) (s := mkMM x y z (fun _ _ _ => (0, 0))) as [(m & E & F)|(e & E & B)].
  - intros i s Hi Fi.
    destruct (for_nodes mmap (fun j m => filled nrad nint coord x y z i j 0 m) bad y
      (fun vy => over fuel z (fun vz m => Some (fill_one nrad nint coord (node x i) vy vz m))) HY) with (fuel := fuel) (s := s) as [(m & E & F)|(e & E & B)]; try assumption.
    + intros j s1 Hj Fj.
      destruct (for_nodes mmap (fun k m => filled nrad nint coord x y z i j k m) bad z
        (fun vz m => Some (fill_one nrad nint coord (node x i) (node y j) vz m)) HZ) with (fuel := fuel) (s := s1) as [(m & E & F)|(e & E & B)]; try assumption.
      * intros k s2 Hk Fk. destruct (fill_one_step nrad nint coord x y z i j k s2 U1 U2 HX HY HZ Hi Hj Hk Fk) as [(m' & E & F)|(e & E & B)]; rewrite E; [left; eauto|right].
        exists e. split; [reflexivity|]. exists i, j, k. auto.
      * lia.
      * left. exists m. split; [exact E|]. destruct F as (E1 & E2 & E3 & F). split; [exact E1|]. split; [exact E2|]. split; [exact E3|].
        intros i' j' k' Hi' Hj' Hk' Hb. apply F; try assumption. unfold before, in_axis in *. lia.
      * right. eauto.
    + lia.
    + left. exists m. split; [exact E|]. destruct F as (E1 & E2 & E3 & F). split; [exact E1|]. split; [exact E2|]. split; [exact E3|].
      intros i' j' k' Hi' Hj' Hk' Hb. apply F; try assumption. unfold before, in_axis in *. lia.
    + right. eauto.
  - split; [reflexivity|]. split; [reflexivity|]. split; [reflexivity|]. intros i' j' k' Hi' Hj' Hk' Hb. unfold before, in_axis in *. lia.
  - lia.
  - left. exists m. split; [exact E|]. destruct F as (E1 & E2 & E3 & F). split; [exact E1|]. split; [exact E2|]. split; [exact E3|].
    unfold holds_material. rewrite E1, E2, E3. intros i j k Hi Hj Hk. rewrite (position_is x y z) by assumption. apply F; try assumption. unfold before, in_axis in *. lia.
  - right. destruct B as (i & j & k & Hi & Hj & Hk & B). exists e, i, j, k. rewrite (position_is x y z) by assumption. auto.
Qed.
Lemma map_refused : forall nrad nint x y z coord fuel,
  (ax_max x < ax_min x \/ ax_max y < ax_min y \/ ax_max z < ax_min z \/ (ax_n x < 0)%Z \/ (ax_n y < 0)%Z \/ (ax_n z < 0)%Z \/ ~ domain_ok x y z coord) ->
  exists e, new_map fuel nrad nint x y z coord = Some (Throw (EGear e)).
Proof.
  intros nrad nint x y z coord fuel H. unfold new_map. assert (B : bad_args x y z coord = true); [|rewrite B; eexists; reflexivity].
  apply not_false_is_true. intros B. unfold bad_args in B. rewrite !orb_false_iff, !Rltb_false, !Z.ltb_ge in B.
  destruct B as ((((((B1 & B2) & B3) & B4) & B5) & B6) & B7). apply H || (repeat (destruct H as [H|H]; [lra || lia|])). apply H. unfold domain_ok.
  destruct (Z.eqb_spec coord CARTESIAN); [now left|]. destruct (Z.eqb_spec coord CYLINDRICAL).
  - rewrite !orb_false_iff, !Rltb_false in B7. right. left. split; [assumption|lra].
  - destruct (Z.eqb_spec coord SPHERICAL); [|discriminate]. rewrite !orb_false_iff, !Rltb_false in B7. right. right. split; [assumption|lra].
Qed.

(** ** reading *)
Lemma reach_out : forall a x, outside1 a x = false <-> in_reach a x.
Proof. intros. unfold outside1, in_reach. rewrite orb_false_iff, !Rltb_false. lra. Qed.
Lemma used_nodes : forall a x, axis_ok a -> in_reach a x ->
  exists ks, ks <> [] /\ used_points a x = map (node a) ks /\ (forall k, In k ks -> next_to a x k) /\
  (forall k, in_axis a k -> Rabs (x - node a k) < 1 / 100000 -> In k ks).
Proof.
  intros a x H HR. pose proof (step_pos a H) as S. pose proof H as (A & B & C & D). unfold in_reach in HR.
  set (q := Ztrunc ((x - ax_min a) / ax_step a)).
  assert (P0 : x - fmod (x - ax_min a) (ax_step a) = node a q) by (rewrite node_step; unfold fmod; fold q; ring).
  assert (IS : 0 < / ax_step a) by (apply Rinv_0_lt_compat; lra).
  assert (V : (x - ax_min a) / ax_step a * ax_step a = x - ax_min a) by (field; lra).
  (* q is a grid number, and x is between it and the next *)
  assert (Q : (0 <= q <= ax_n a)%Z /\ node a q - 1 / 100000 <= x < node a (q + 1)).
  { rewrite !node_step, plus_IZR. destruct (Rle_lt_dec 0 (x - ax_min a)) as [L|L].
    - assert (F0 : 0 <= (x - ax_min a) / ax_step a) by (apply Rmult_le_pos; lra).
      assert (E : q = Zfloor ((x - ax_min a) / ax_step a)) by (apply Ztrunc_floor; exact F0).
      pose proof (Zfloor_lb ((x - ax_min a) / ax_step a)) as F1. pose proof (Zfloor_ub ((x - ax_min a) / ax_step a)) as F2. rewrite <- E in F1, F2.
      assert (G1 : IZR q * ax_step a <= x - ax_min a) by (rewrite <- V; apply Rmult_le_compat_r; lra).
      assert (G2 : x - ax_min a < (IZR q + 1) * ax_step a) by (rewrite <- V; apply Rmult_lt_compat_r; lra).
      assert (q0 : (0 <= q)%Z) by (rewrite E; apply Zfloor_lub; exact F0). split; [|lra]. split; [exact q0|].
      destruct (Z_le_gt_dec q (ax_n a)) as [Q|Q]; [exact Q|exfalso].
      assert (q1 : (ax_n a + 1 <= q)%Z) by lia. apply IZR_le in q1. rewrite plus_IZR in q1.
      assert (G3 : (IZR (ax_n a) + 1) * ax_step a <= IZR q * ax_step a) by (apply Rmult_le_compat_r; lra).
      destruct (Z.eq_dec (ax_n a) 0) as [N|N].
      + specialize (C N). rewrite N in G3. unfold ax_step in G3. rewrite N in G3. cbn [Z.eqb] in G3. unfold ax_step in G1. rewrite N in G1. cbn [Z.eqb] in G1. lra.
      + pose proof (node_last a H ltac:(lia)) as NL. rewrite node_step in NL. lra.
    - assert (F0 : (x - ax_min a) / ax_step a <= 0). { apply Rmult_le_reg_r with (ax_step a); [lra|]. rewrite V. lra. }
      assert (F1 : -1 < (x - ax_min a) / ax_step a). { apply Rmult_lt_reg_r with (ax_step a); [lra|]. rewrite V. lra. }
      assert (E : q = 0%Z). { unfold q. rewrite Ztrunc_ceil by exact F0. apply Zceil_imp. cbn. lra. }
      rewrite E. split; [lia|]. lra. }
  destruct Q as (Q & X1 & X2).
  assert (I0 : in_range1 a (node a q) = true).
  { unfold in_range1. apply andb_true_iff. rewrite !Rleb_true. split; [apply node_min; [assumption|lia]|apply node_le; [assumption|lia|lia]]. }
  assert (P1 : node a q + ax_step a = node a (q + 1)) by (rewrite !node_step, plus_IZR; ring).
  unfold used_points. rewrite P0, P1, I0.
  assert (Near : forall k, in_axis a k -> Rabs (x - node a k) < 1 / 100000 -> k = q \/ k = (q + 1)%Z).
  { intros k Hk HA. rewrite node_step in *. rewrite plus_IZR in X2. assert (x - ax_min a - IZR k * ax_step a < 1 / 100000 /\ - (1 / 100000) < x - ax_min a - IZR k * ax_step a) as [N1 N2].
    { unfold Rabs in HA. destruct (Rcase_abs _); lra. }
    destruct (Z.eq_dec k q); [now left|]. destruct (Z.eq_dec k (q + 1)); [now right|]. exfalso.
    destruct (Z_lt_ge_dec k q) as [K|K].
    - assert (K1 : (k + 1 <= q)%Z) by lia. apply IZR_le in K1. rewrite plus_IZR in K1. assert ((IZR k + 1) * ax_step a <= IZR q * ax_step a) by (apply Rmult_le_compat_r; lra). lra.
    - assert (K1 : (q + 2 <= k)%Z) by lia. apply IZR_le in K1. rewrite plus_IZR in K1. assert ((IZR q + 2) * ax_step a <= IZR k * ax_step a) by (apply Rmult_le_compat_r; lra). lra. }
  rewrite !node_step in X1, X2. rewrite plus_IZR in X2.
  destruct (in_range1 a (node a (q + 1))) eqn:I1; cbn [Nat.add firstn].
  - unfold in_range1 in I1. apply andb_true_iff in I1. rewrite !Rleb_true in I1. destruct I1 as (_ & I1). apply node_le in I1; [|assumption|lia].
    exists [q; (q + 1)%Z]. split; [discriminate|]. split; [reflexivity|]. split.
    + intros k [<-|[<-|[]]]; (split; [unfold in_axis; lia|]); rewrite part_is, node_step, ?plus_IZR; unfold Rabs; destruct (Rcase_abs _); lra.
    + intros k Hk HA. destruct (Near k Hk HA) as [->| ->]; [now left|right; now left].
  - assert (QN : q = ax_n a).
    { destruct (Z.eq_dec q (ax_n a)); [assumption|exfalso]. unfold in_range1 in I1. apply andb_false_iff in I1. rewrite !Rleb_false in I1.
      destruct I1 as [I1|I1]; [pose proof (node_min a (q + 1) H ltac:(lia)); lra|pose proof (proj2 (node_le a (q + 1) H ltac:(lia)) ltac:(lia)); lra]. }
    exists [q]. split; [discriminate|]. split; [reflexivity|]. split.
    + intros k [<-|[]]. split; [unfold in_axis; lia|]. rewrite part_is, node_step. unfold Rabs. destruct (Rcase_abs _); lra.
    + intros k Hk HA. destruct (Near k Hk HA) as [->| ->]; [now left|]. unfold in_axis in Hk. lia.
Qed.

Definition node3 (m : mmap) (t : Z * Z * Z) : R * R * R := match t with (i, j, k) => (node (mm_x m) i, node (mm_y m) j, node (mm_z m) k) end.
Lemma points_nodes : forall m x y z, axis_ok (mm_x m) -> axis_ok (mm_y m) -> axis_ok (mm_z m) -> in_reach (mm_x m) x -> in_reach (mm_y m) y -> in_reach (mm_z m) z ->
  exists ts, ts <> [] /\ all_points m x y z = map (node3 m) ts /\
  (forall i j k, In (i, j, k) ts -> next_to (mm_x m) x i /\ next_to (mm_y m) y j /\ next_to (mm_z m) z k) /\
  (forall i j k, in_axis (mm_x m) i -> in_axis (mm_y m) j -> in_axis (mm_z m) k ->
     Rabs (x - node (mm_x m) i) < 1 / 100000 -> Rabs (y - node (mm_y m) j) < 1 / 100000 -> Rabs (z - node (mm_z m) k) < 1 / 100000 -> In (i, j, k) ts).
Proof.
  intros m x y z HX HY HZ RX RY RZ.
  destruct (used_nodes _ _ HX RX) as (kx & X0 & X1 & X2 & X3). destruct (used_nodes _ _ HY RY) as (ky & Y0 & Y1 & Y2 & Y3). destruct (used_nodes _ _ HZ RZ) as (kz & Z0 & Z1 & Z2 & Z3).
  exists (flat_map (fun i => flat_map (fun j => map (fun k => (i, j, k)) kz) ky) kx).
  assert (I : forall i j k, In (i, j, k) (flat_map (fun i => flat_map (fun j => map (fun k => (i, j, k)) kz) ky) kx) <-> In i kx /\ In j ky /\ In k kz).
  { intros. rewrite in_flat_map. split.
    - intros (i' & A & B). rewrite in_flat_map in B. destruct B as (j' & B & C). apply in_map_iff in C. destruct C as (k' & C & E). injection C as -> -> ->. auto.
    - intros (A & B & C). exists i. split; [exact A|]. rewrite in_flat_map. exists j. split; [exact B|]. apply in_map_iff. eauto. }
  split; [|split; [|split]].
  - destruct kx as [|i kx]; [contradiction|]. destruct ky as [|j ky]; [contradiction|]. destruct kz as [|k kz]; [contradiction|]. discriminate.
  - unfold all_points. rewrite X1, Y1, Z1. clear. induction kx as [|i kx IH]; [reflexivity|]. cbn [map flat_map]. rewrite map_app, IH. f_equal. clear IH.
    induction ky as [|j ky IH]; [reflexivity|]. cbn [map flat_map]. rewrite map_app, IH. f_equal. rewrite !map_map. reflexivity.
  - intros i j k H. apply I in H. destruct H as (A & B & C). auto.
  - intros. apply I. auto.
Qed.

(** the weighted mean *)
Definition pairval (b : bool) (v : R * R) : R := if b then fst v else snd v.
Lemma interp_bounds : forall m x y z (b : bool) lo hi, axis_ok (mm_x m) -> axis_ok (mm_y m) -> axis_ok (mm_z m) ->
  forall ts sr si sw, (forall i j k, In (i, j, k) ts -> in_axis (mm_x m) i /\ in_axis (mm_y m) j /\ in_axis (mm_z m) k /\ lo <= pairval b (mm_val m i j k) <= hi) ->
  0 <= sw -> lo * sw <= (if b then sr else si) <= hi * sw -> (ts <> [] \/ 0 < sw) ->
  exists sr' si' sw', interp m x y z (map (node3 m) ts) (sr, si, sw) = Ok (sr', si', sw') /\ 0 < sw' /\ lo * sw' <= (if b then sr' else si') <= hi * sw'.
Proof.
  intros m x y z b lo hi HX HY HZ ts. induction ts as [|[[i j] k] ts IH]; intros sr si sw HT H0 HS HN.
  - cbn. exists sr, si, sw. destruct HN as [HN|HN]; [contradiction|]. auto.
  - destruct (HT i j k (or_introl eq_refl)) as (Hi & Hj & Hk & HV). cbn [map node3 interp].
    set (d := sqrt _). rewrite index_node by assumption. cbn [rbind]. unfold mm_get. rewrite (proj2 (inb_true m i j k)) by auto. cbn [rbind].
    assert (d0 : 0 <= d) by apply sqrt_pos. rewrite Rabs_pos_eq by exact d0. set (v := mm_val m i j k) in *.
    destruct (Rltb_spec d (1 / 100000)) as [L|L].
    + eexists _, _, _. split; [reflexivity|]. split; [lra|]. destruct b; cbn [pairval] in HV; lra.
    + assert (ID : 0 < 1 / d) by (apply Rdiv_lt_0_compat; lra). apply IH.
      * intros i' j' k' Hin. apply HT. now right.
      * lra.
      * destruct b; cbn [pairval] in HV; unfold Rdiv in *; rewrite Rmult_1_l in *.
        -- assert (lo * / d <= fst v * / d) by (apply Rmult_le_compat_r; lra). assert (fst v * / d <= hi * / d) by (apply Rmult_le_compat_r; lra). lra.
        -- assert (lo * / d <= snd v * / d) by (apply Rmult_le_compat_r; lra). assert (snd v * / d <= hi * / d) by (apply Rmult_le_compat_r; lra). lra.
      * right. lra.
Qed.
Lemma index_reach : forall m x y z, axis_ok (mm_x m) -> axis_ok (mm_y m) -> axis_ok (mm_z m) -> in_reach (mm_x m) x -> in_reach (mm_y m) y -> in_reach (mm_z m) z ->
  exists p, calculateGridIndex m x y z = Ok p.
Proof.
  intros m x y z HX HY HZ RX RY RZ. unfold calculateGridIndex. rewrite (proj2 (reach_out _ _) RX), (proj2 (reach_out _ _) RY), (proj2 (reach_out _ _) RZ). cbn [orb].
  assert (G : forall a x, axis_ok a -> in_reach a x -> exists i, grid_index1 a x = Ok i).
  { clear. intros a x H R. pose proof (step_pos a H) as S. pose proof H as (A & B & C & D). unfold in_reach in R. unfold grid_index1. destruct (Reqb_spec (ax_step a) 0); [lra|].
    unfold to_int. set (w := (x - ax_min a) / ax_step a + 1 / 2).
    assert (V : (x - ax_min a) / ax_step a * ax_step a = x - ax_min a) by (field; assumption).
    assert (W : 0 <= w < IZR (ax_n a) + 2).
    { unfold w. assert (- (1 / 2) <= (x - ax_min a) / ax_step a) by (apply Rmult_le_reg_r with (ax_step a); [lra|]; rewrite V; lra).
      assert ((x - ax_min a) / ax_step a < IZR (ax_n a) + 3 / 2); [|lra]. apply Rmult_lt_reg_r with (ax_step a); [lra|]. rewrite V.
      destruct (Z.eq_dec (ax_n a) 0) as [N|N].
      - specialize (C N). rewrite N. unfold ax_step. rewrite N. cbn [Z.eqb]. lra.
      - pose proof (node_last a H ltac:(lia)) as NL. rewrite node_step in NL. lra. }
    assert (T : (0 <= Ztrunc w <= ax_n a + 1)%Z).
    { rewrite Ztrunc_floor by lra. pose proof (Zfloor_lb w). split; [apply Zfloor_lub; lra|]. assert (LT : IZR (Zfloor w) < IZR (ax_n a + 2)) by (rewrite plus_IZR; lra). apply lt_IZR in LT. lia. }
    unfold int_okb. destruct (Z.leb_spec (-2147483648) (Ztrunc w)); [|lia]. destruct (Z.leb_spec (Ztrunc w) 2147483647); [|lia]. eexists. reflexivity. }
  destruct (G _ _ HX RX) as (i & ->). destruct (G _ _ HY RY) as (j & ->). destruct (G _ _ HZ RZ) as (k & ->). cbn [rbind]. eexists. reflexivity.
Qed.
Definition get_length (rad : bool) (m : mmap) (x y z : R) : result R := if rad then getRadiationLength m x y z else getInteractionLength m x y z.
Lemma reads_between : forall m x y z (rad : bool) lo hi, axis_ok (mm_x m) -> axis_ok (mm_y m) -> axis_ok (mm_z m) ->
  in_reach (mm_x m) x -> in_reach (mm_y m) y -> in_reach (mm_z m) z ->
  (forall i j k, next_to (mm_x m) x i -> next_to (mm_y m) y j -> next_to (mm_z m) z k ->
     lo <= (if rad then fst (mm_val m i j k) else snd (mm_val m i j k)) <= hi) ->
  exists r, (if rad then getRadiationLength m x y z else getInteractionLength m x y z) = Ok r /\ lo <= r <= hi.
Proof.
  intros m x y z rad lo hi HX HY HZ RX RY RZ HV. destruct (points_nodes m x y z HX HY HZ RX RY RZ) as (ts & T0 & T1 & T2 & _).
  destruct (index_reach m x y z HX HY HZ RX RY RZ) as (p & IP).
  destruct (interp_bounds m x y z rad lo hi HX HY HZ ts 0 0 0) as (sr & si & sw & E & W & B); [|lra|destruct rad; lra|now left|].
  { intros i j k Hin. destruct (T2 i j k Hin) as (A & B & C). split; [apply A|]. split; [apply B|]. split; [apply C|]. apply HV; assumption. }
  assert (Q : lo <= (if rad then sr else si) / sw <= hi).
  { assert (V : (if rad then sr else si) / sw * sw = (if rad then sr else si)) by (field; lra).
    split; (apply Rmult_le_reg_r with sw; [exact W|]); rewrite V; apply B. }
  assert (EI : interpolateOnGrid m x y z = Ok (sr / sw, si / sw)).
  { unfold interpolateOnGrid. rewrite T1, E. cbn [rbind]. destruct (Reqb_spec sw 0); [lra|reflexivity]. }
  destruct rad; [unfold getRadiationLength|unfold getInteractionLength]; rewrite IP; cbn [rbind]; rewrite EI; cbn [rmap fst snd]; eexists; (split; [reflexivity|exact Q]).
Qed.
(** at most one grid point is that close *)
Lemma close_unique : forall a x k k', axis_ok a -> Rabs (x - node a k) < 1 / 100000 -> Rabs (x - node a k') < 1 / 100000 -> k = k'.
Proof.
  intros a x k k' H A B. pose proof (step_pos a H) as S. rewrite !node_step in *.
  assert (C : - (2 / 100000) < (IZR k - IZR k') * ax_step a < 2 / 100000).
  { unfold Rabs in A, B. destruct (Rcase_abs _), (Rcase_abs _); lra. }
  destruct (Z.lt_trichotomy k k') as [L|[L|L]]; [exfalso|exact L|exfalso].
  - assert (L1 : (k + 1 <= k')%Z) by lia. apply IZR_le in L1. rewrite plus_IZR in L1. assert (1 * ax_step a <= (IZR k' - IZR k) * ax_step a) by (apply Rmult_le_compat_r; lra). lra.
  - assert (L1 : (k' + 1 <= k)%Z) by lia. apply IZR_le in L1. rewrite plus_IZR in L1. assert (1 * ax_step a <= (IZR k - IZR k') * ax_step a) by (apply Rmult_le_compat_r; lra). lra.
Qed.
Lemma dist3_comp : forall x y z x' y' z' e, 0 < e -> dist3 x y z x' y' z' < e -> Rabs (x - x') < e /\ Rabs (y - y') < e /\ Rabs (z - z') < e.
Proof.
  intros x y z x' y' z' e He H. unfold dist3 in H.
  assert (G : forall u s, 0 <= s -> u * u <= s -> sqrt s < e -> Rabs u < e).
  { intros u s Hs L Q. rewrite <- sqrt_Rsqr_abs. apply Rle_lt_trans with (sqrt s); [|exact Q]. apply sqrt_le_1_alt. exact L. }
  pose proof (Rle_0_sqr (x - x')). pose proof (Rle_0_sqr (y - y')). pose proof (Rle_0_sqr (z - z')). unfold Rsqr in *.
  repeat split; (eapply G; [| |exact H]; lra).
Qed.
Lemma interp_hit : forall m x y z i j k, axis_ok (mm_x m) -> axis_ok (mm_y m) -> axis_ok (mm_z m) ->
  dist3 x y z (node (mm_x m) i) (node (mm_y m) j) (node (mm_z m) k) < 1 / 100000 ->
  forall ts acc, (forall i j k, In (i, j, k) ts -> in_axis (mm_x m) i /\ in_axis (mm_y m) j /\ in_axis (mm_z m) k) -> In (i, j, k) ts ->
  interp m x y z (map (node3 m) ts) acc = Ok (fst (mm_val m i j k), snd (mm_val m i j k), 1).
Proof.
  intros m x y z i j k HX HY HZ HD ts. induction ts as [|[[i' j'] k'] ts IH]; intros acc HT Hin; [contradiction|].
  destruct (HT i' j' k' (or_introl eq_refl)) as (Hi & Hj & Hk). cbn [map node3 interp].
  rewrite index_node by assumption. cbn [rbind]. unfold mm_get. rewrite (proj2 (inb_true m i' j' k')) by auto. cbn [rbind].
  rewrite Rabs_pos_eq by apply sqrt_pos.
  change (sqrt _) with (dist3 x y z (node (mm_x m) i') (node (mm_y m) j') (node (mm_z m) k')) at 1.
  destruct (Rltb_spec (dist3 x y z (node (mm_x m) i') (node (mm_y m) j') (node (mm_z m) k')) (1 / 100000)) as [L|L].
  - apply dist3_comp in L; [|lra]. apply dist3_comp in HD; [|lra]. destruct L as (L1 & L2 & L3). destruct HD as (D1 & D2 & D3).
    rewrite (close_unique _ _ i i' HX D1 L1), (close_unique _ _ j j' HY D2 L2), (close_unique _ _ k k' HZ D3 L3). reflexivity.
  - destruct Hin as [E|Hin]; [injection E as -> -> ->; lra|]. destruct acc as [[sr si] sw]. apply IH; [|exact Hin]. intros. apply HT. now right.
Qed.
Lemma reads_grid : forall m x y z i j k, axis_ok (mm_x m) -> axis_ok (mm_y m) -> axis_ok (mm_z m) ->
  in_reach (mm_x m) x -> in_reach (mm_y m) y -> in_reach (mm_z m) z -> in_axis (mm_x m) i -> in_axis (mm_y m) j -> in_axis (mm_z m) k ->
  dist3 x y z (node (mm_x m) i) (node (mm_y m) j) (node (mm_z m) k) < 1 / 100000 ->
  getRadiationLength m x y z = Ok (fst (mm_val m i j k)) /\ getInteractionLength m x y z = Ok (snd (mm_val m i j k)).
Proof.
  intros m x y z i j k HX HY HZ RX RY RZ Hi Hj Hk HD. destruct (points_nodes m x y z HX HY HZ RX RY RZ) as (ts & T0 & T1 & T2 & T3).
  destruct (index_reach m x y z HX HY HZ RX RY RZ) as (p & IP). destruct (dist3_comp _ _ _ _ _ _ (1 / 100000) ltac:(lra) HD) as (D1 & D2 & D3).
  assert (EI : interpolateOnGrid m x y z = Ok (fst (mm_val m i j k), snd (mm_val m i j k))).
  { unfold interpolateOnGrid. rewrite T1, (interp_hit m x y z i j k HX HY HZ HD).
    - cbn [rbind]. destruct (Reqb_spec 1 0); [lra|]. unfold Rdiv. rewrite Rinv_1, !Rmult_1_r. reflexivity.
    - intros i' j' k' Hin. destruct (T2 i' j' k' Hin) as (A & B & C). split; [apply A|]. split; [apply B|apply C].
    - apply T3; assumption. }
  unfold getRadiationLength, getInteractionLength. rewrite IP. cbn [rbind]. rewrite EI. cbn. auto.
Qed.
Lemma reads_outside : forall m x y z, ~ (in_reach (mm_x m) x /\ in_reach (mm_y m) y /\ in_reach (mm_z m) z) ->
  (exists e, getRadiationLength m x y z = Throw (EGear e)) /\ (exists e, getInteractionLength m x y z = Throw (EGear e)).
Proof.
  intros m x y z H. unfold getRadiationLength, getInteractionLength, calculateGridIndex.
  assert (B : (outside1 (mm_x m) x || outside1 (mm_y m) y || outside1 (mm_z m) z)%bool = true).
  { apply not_false_is_true. intros B. rewrite !orb_false_iff, !reach_out in B. tauto. }
  rewrite B. cbn [rbind]. split; eexists; reflexivity.
Qed.
(** ** ranges the constructor cannot handle *)
Lemma first_fill : forall nrad nint x y z coord fuel, bad_args x y z coord = false -> (0 < fuel)%nat ->
  fill_one nrad nint coord (ax_min x) (ax_min y) (ax_min z) (mkMM x y z (fun _ _ _ => (0, 0))) = UB ->
  new_map fuel nrad nint x y z coord = Some UB.
Proof.
  intros nrad nint x y z coord fuel HB HF HU. unfold new_map. rewrite HB. unfold bad_args in HB. rewrite !orb_false_iff, !Rltb_false in HB.
  destruct fuel as [|fuel]; [lia|]. unfold over. cbn [for_loop]. destruct (Rleb_spec (ax_min x) (ax_max x)); [|lra].
  destruct (Rleb_spec (ax_min y) (ax_max y)); [|lra]. destruct (Rleb_spec (ax_min z) (ax_max z)); [|lra]. rewrite HU. reflexivity.
Qed.
(** a point-like range that is to be cut into steps *)
Lemma point_range_ub : forall nrad nint x y z coord fuel, domain_ok x y z coord -> (0 < fuel)%nat ->
  (forall p, exists r, nrad p = Ok r) -> (forall p, exists r, nint p = Ok r) -> axis_ok x -> axis_ok y ->
  ax_min z = ax_max z -> (0 < ax_n z)%Z -> new_map fuel nrad nint x y z coord = Some UB.
Proof.
  intros nrad nint x y z coord fuel HD HF R1 R2 HX HY E N'. assert (N : ax_n z <> 0%Z) by lia.
  assert (HB : bad_args x y z coord = false) by (apply bad_args_ok'; assumption || lia || lra). apply first_fill; try assumption. unfold fill_one, budget.
  set (p := to_cartesian _ _ _ _). destruct (R1 p) as (r & ->). destruct (R2 p) as (i & ->).
  assert (G : calculateGridIndex (mkMM x y z (fun _ _ _ => (0, 0))) (ax_min x) (ax_min y) (ax_min z) = UB).
  { unfold calculateGridIndex. cbn [mm_x mm_y mm_z]. assert (A : forall a, axis_ok a -> ax_min a = node a 0) by (intros; rewrite node_step; ring).
    rewrite (A x HX), (A y HY), !node_inside by (assumption || unfold in_axis; pose proof HX as (? & _); pose proof HY as (? & _); lia). cbn [orb].
    assert (O : outside1 z (ax_min z) = false) by (apply reach_out; unfold in_reach; lra). rewrite O.
    rewrite !grid_index_node by (assumption || unfold in_axis; pose proof HX as (? & _); pose proof HY as (? & _); lia). cbn [rbind].
    unfold grid_index1, ax_step. destruct (Z.eqb_spec (ax_n z) 0); [contradiction|]. rewrite E. replace ((ax_max z - ax_max z) / IZR (ax_n z)) with 0 by (unfold Rdiv; ring).
    destruct (Reqb_spec 0 0); [reflexivity|lra]. }
  destruct (veqb p vzero); cbn [rbind]; rewrite G; reflexivity.
Qed.

(** nothing between the ends, but the range is longer than 1: the second point has no place in the map *)
Lemma long_range_ub : forall nrad nint x y z coord fuel, domain_ok x y z coord -> (1 < fuel)%nat ->
  (forall p, exists r, nrad p = Ok r) -> (forall p, exists r, nint p = Ok r) -> axis_ok x -> axis_ok y ->
  ax_n z = 0%Z -> ax_min z + 1 <= ax_max z -> new_map fuel nrad nint x y z coord = Some UB.
Proof.
  intros nrad nint x y z coord fuel HD HF R1 R2 HX HY N L.
  assert (HB : bad_args x y z coord = false) by (apply bad_args_ok'; assumption || lia || lra). unfold new_map. rewrite HB.
  unfold bad_args in HB. rewrite !orb_false_iff, !Rltb_false in HB.
  assert (Bd : forall p, exists v, budget nrad nint p = Ok v).
  { intros p. unfold budget. destruct (R1 p) as (r & ->). destruct (R2 p) as (i & ->). cbn [rbind]. destruct (veqb p vzero); eexists; reflexivity. }
  assert (A : forall a, ax_min a = node a 0) by (intros; rewrite node_step; ring).
  assert (I0 : forall a, axis_ok a -> in_axis a 0) by (intros a (? & _); unfold in_axis; lia).
  destruct fuel as [|[|fuel]]; [lia|lia|]. unfold over. cbn [for_loop]. destruct (Rleb_spec (ax_min x) (ax_max x)); [|lra].
  destruct (Rleb_spec (ax_min y) (ax_max y)); [|lra]. destruct (Rleb_spec (ax_min z) (ax_max z)); [|lra].
  assert (G : forall v, ax_min z <= v <= ax_max z -> forall m, mm_x m = x -> mm_y m = y -> mm_z m = z ->
     calculateGridIndex m (ax_min x) (ax_min y) v = rbind (to_int ((v - ax_min z) / 1 + 1 / 2)) (fun k => Ok (0%Z, 0%Z, k))).
  { intros v Hv m Ex Ey Ez. unfold calculateGridIndex. rewrite Ex, Ey, Ez, (A x), (A y), !node_inside by auto.
    assert (O : outside1 z v = false) by (apply reach_out; unfold in_reach; lra). rewrite O. cbn [orb]. rewrite !grid_index_node by auto. cbn [rbind].
    unfold grid_index1, ax_step. rewrite N. cbn [Z.eqb]. destruct (Reqb_spec 1 0); [lra|reflexivity]. }
  unfold fill_one at 1. destruct (Bd (to_cartesian coord (ax_min x) (ax_min y) (ax_min z))) as (v & ->). cbn [rbind].
  rewrite G by (reflexivity || lra). 
  assert (T : forall k, (0 <= k <= 1)%Z -> to_int ((ax_min z + IZR k - ax_min z) / 1 + 1 / 2) = Ok k).
  { intros k Hk. unfold to_int. replace ((ax_min z + IZR k - ax_min z) / 1 + 1 / 2) with (IZR k + 1 / 2) by field.
    assert (E : Ztrunc (IZR k + 1 / 2) = k). { pose proof (IZR_le 0 k ltac:(lia)). rewrite Ztrunc_floor by lra. apply Zfloor_imp. rewrite plus_IZR. lra. }
    rewrite E. unfold int_okb. destruct (Z.leb_spec (-2147483648) k); [|lia]. destruct (Z.leb_spec k 2147483647); [reflexivity|lia]. }
  pose proof (T 0%Z ltac:(lia)) as T0. rewrite Rplus_0_r in T0. rewrite T0. cbn [rbind].
  assert (IB : mm_inb {| mm_x := x; mm_y := y; mm_z := z; mm_val := fun _ _ _ => (0, 0) |} 0 0 0 = true).
  { apply inb_true. cbn [mm_x mm_y mm_z]. split; [auto|]. split; [auto|]. unfold in_axis. lia. }
  unfold mm_set at 1. rewrite IB.
  assert (S1 : ax_step z = 1) by (unfold ax_step; rewrite N; reflexivity). rewrite S1.
  destruct (Rleb_spec (ax_min z + 1) (ax_max z)); [|lra].
  unfold fill_one at 1. destruct (Bd (to_cartesian coord (ax_min x) (ax_min y) (ax_min z + 1))) as (v' & ->). cbn [rbind].
  rewrite G by (reflexivity || lra). rewrite (T 1%Z ltac:(lia)). cbn [rbind]. unfold mm_set.
  match goal with |- context [mm_inb ?m 0 0 1] => assert (IB2 : mm_inb m 0 0 1 = false) end.
  { apply not_true_is_false. intros Q. apply inb_true in Q. cbn [mm_x mm_y mm_z] in Q. unfold in_axis in Q. lia. }
  rewrite IB2. reflexivity.
Qed.

(** ** the factory *)
Lemma eq_keys_iff : forall a b, eq_keys a b = true <-> a = b.
Proof.
  induction a as [|x a IH]; destruct b as [|y b]; cbn; try (split; [discriminate|discriminate]); [tauto|].
  rewrite andb_true_iff, Reqb_true, IH. split; [intros [-> ->]; reflexivity|intros E; injection E; auto].
Qed.
Lemma grid_key_iff : forall r r', grid_key r = grid_key r' <-> same_grid r r'.
Proof.
  intros [[a b c] [d e f] [g h i] co] [[a' b' c'] [d' e' f'] [g' h' i'] co']. unfold grid_key, same_grid. cbn. split.
  - intros E. injection E as -> -> C -> -> F -> -> I. apply eq_IZR in C. apply eq_IZR in F. apply eq_IZR in I. subst. auto.
  - intros (E1 & E2 & E3). injection E1 as -> -> ->. injection E2 as -> -> ->. injection E3 as -> -> ->. reflexivity.
Qed.
Lemma found_stays : forall l fl rs f k p, key_find (f_map f) k = Some p -> key_find (f_map (requests l fl f rs)) k = Some p.
Proof.
  intros l fl rs. induction rs as [|r rs IH]; intros f k p H; [exact H|]. cbn [requests fold_left]. apply IH. unfold createMaterialMap.
  destruct (key_find (f_map f) (grid_key r)) eqn:E; [exact H|].
  assert (N : forall v, key_find ((grid_key r, v) :: f_map f) k = Some p).
  { intros v. cbn [key_find]. destruct (eq_keys (grid_key r) k) eqn:Q; [|exact H]. apply eq_keys_iff in Q. rewrite <- Q, E in H. discriminate. }
  destruct (fl r); [destruct l|]; cbn [snd f_map]; auto.
Qed.
Lemma create_found : forall l fl f r p f', createMaterialMap l fl f r = (Ok p, f') -> key_find (f_map f') (grid_key r) = Some p.
Proof.
  intros l fl f r p f' H. unfold createMaterialMap in H. destruct (key_find (f_map f) (grid_key r)) eqn:E.
  - injection H as <- <-. exact E.
  - destruct (fl r); [discriminate|]. injection H as <- <-. cbn [f_map key_find]. rewrite (proj2 (eq_keys_iff _ _) eq_refl). reflexivity.
Qed.
(** what is asked for once is given again, whatever was asked in between *)
Lemma again_same : forall l fl f r r' p f' rs, createMaterialMap l fl f r = (Ok p, f') -> same_grid r r' ->
  fst (createMaterialMap l fl (requests l fl f' rs) r') = Ok p.
Proof.
  intros l fl f r r' p f' rs H G. apply create_found in H. unfold createMaterialMap. apply grid_key_iff in G. rewrite <- G.
  rewrite (found_stays l fl rs f' _ _ H). reflexivity.
Qed.
Definition fac_ok (f : factory) : Prop :=
  (1 <= f_next f)%Z /\
  (forall k p, key_find (f_map f) k = Some p -> p <> 0%Z -> (1 <= p < f_next f)%Z /\ exists r, In (p, r) (f_objs f) /\ grid_key r = k) /\
  (forall p r r', In (p, r) (f_objs f) -> In (p, r') (f_objs f) -> r = r') /\
  (forall p r, In (p, r) (f_objs f) -> (1 <= p < f_next f)%Z).
Lemma fac_ok_step : forall l fl f r, fac_ok f -> fac_ok (snd (createMaterialMap l fl f r)).
Proof.
  intros l fl f r (A & B & C & D). unfold createMaterialMap. destruct (key_find (f_map f) (grid_key r)) eqn:E; [split; [exact A|]; split; [exact B|]; split; [exact C|exact D]|].
  destruct (fl r); [destruct l|]; cbn [snd].
  - split; [exact A|]. split; [|split; [exact C|exact D]]. cbn [f_map f_next f_objs key_find]. intros k p. destruct (eq_keys (grid_key r) k); [intros Q; injection Q as <-; contradiction|apply B].
  - split; [exact A|]. split; [exact B|]. split; [exact C|exact D].
  - split; [cbn; lia|]. cbn [f_map f_next f_objs key_find]. split; [|split].
    + intros k p. destruct (eq_keys (grid_key r) k) eqn:Q.
      * intros W _. injection W as <-. apply eq_keys_iff in Q. split; [lia|]. exists r. split; [now left|exact Q].
      * intros W N. destruct (B k p W N) as (L & r0 & I & K). split; [lia|]. exists r0. split; [now right|exact K].
    + intros p r1 r2 [E1|E1] [E2|E2].
      * congruence.
      * injection E1 as <- <-. apply D in E2. lia.
      * injection E2 as <- <-. apply D in E1. lia.
      * eapply C; eassumption.
    + intros p r1 [E1|E1]; [injection E1 as <- <-; lia|]. apply D in E1. lia.
Qed.
Lemma fac_ok_new : fac_ok new_factory.
Proof. split; [cbn; lia|]. cbn. split; [discriminate|]. split; intros; contradiction. Qed.
Lemma fac_ok_requests : forall l fl rs f, fac_ok f -> fac_ok (requests l fl f rs).
Proof. intros l fl rs. induction rs as [|r rs IH]; intros f H; [exact H|]. cbn. apply IH. apply fac_ok_step. exact H. Qed.
Lemma made_for : forall l fl rs r p f', createMaterialMap l fl (requests l fl new_factory rs) r = (Ok p, f') -> p <> 0%Z ->
  exists r0, In (p, r0) (f_objs f') /\ same_grid r0 r /\ (forall r1, In (p, r1) (f_objs f') -> r1 = r0).
Proof.
  intros l fl rs r p f' H N. pose proof (fac_ok_step l fl _ r (fac_ok_requests l fl rs _ fac_ok_new)) as K. rewrite H in K. cbn [snd] in K.
  destruct K as (A & B & C & D). destruct (B (grid_key r) p (create_found _ _ _ _ _ _ H) N) as (_ & r0 & I & G). exists r0. split; [exact I|]. split; [apply grid_key_iff; exact G|]. intros r1 I1. eapply C; eassumption.
Qed.
Lemma null_never : forall l fl rs r p f', (forall q, fl q = false) -> createMaterialMap l fl (requests l fl new_factory rs) r = (Ok p, f') -> p <> 0%Z.
Proof.
  intros l fl rs r p f' F H.
  assert (G : forall rs f, (1 <= f_next f)%Z /\ (forall k p, key_find (f_map f) k = Some p -> (1 <= p)%Z) ->
     (1 <= f_next (requests l fl f rs))%Z /\ (forall k p, key_find (f_map (requests l fl f rs)) k = Some p -> (1 <= p)%Z)).
  { clear H. induction rs0 as [|q rs0 IH]; intros f K; [exact K|]. cbn. apply IH. destruct K as (K1 & K2). unfold createMaterialMap.
    destruct (key_find (f_map f) (grid_key q)) eqn:E; [split; auto|]. rewrite F. cbn [snd f_next f_map key_find]. split; [lia|].
    intros k v. destruct (eq_keys (grid_key q) k); [intros W; injection W as <-; exact K1|apply K2]. }
  destruct (G (rs ++ [r]) new_factory) as (G1 & G2); [cbn; split; [lia|discriminate]|].
  pose proof (create_found _ _ _ _ _ _ H) as Q. unfold requests in *. rewrite fold_left_app in G2. cbn in G2. rewrite H in G2. cbn [snd] in G2. specialize (G2 _ _ Q). lia.
Qed.
(** maps of different grids are different objects *)
Lemma different_objects : forall l fl rs r p f' rs' r' p' f'', createMaterialMap l fl (requests l fl new_factory rs) r = (Ok p, f') ->
  createMaterialMap l fl (requests l fl f' rs') r' = (Ok p', f'') -> p <> 0%Z -> p = p' -> same_grid r r'.
Proof.
  intros l fl rs r p f' rs' r' p' f'' H H' N E. subst p'.
  assert (E : requests l fl f' rs' = requests l fl new_factory (rs ++ r :: rs')) by (unfold requests; rewrite fold_left_app; cbn; unfold requests in H; rewrite H; reflexivity).
  pose proof (fac_ok_step l fl _ r' (fac_ok_requests l fl (rs ++ r :: rs') _ fac_ok_new)) as K. rewrite <- E, H' in K. cbn [snd] in K.
  pose proof (create_found _ _ _ _ _ _ H) as F1. pose proof (found_stays l fl rs' f' _ _ F1) as F2.
  pose proof (found_stays l fl [r'] _ _ _ F2) as F3. cbn in F3. rewrite H' in F3. cbn [snd] in F3. pose proof (create_found _ _ _ _ _ _ H') as F4.
  destruct K as (A & B & C & D). destruct (B _ _ F3 N) as (_ & r0 & I0 & G0). destruct (B _ _ F4 N) as (_ & r1 & I1 & G1).
  rewrite (C _ _ _ I0 I1) in G0. apply grid_key_iff. congruence.
Qed.
Lemma coordinates_ignored : forall l fl rs x y z c c', fl (mkReq x y z c) = false -> let f := requests l fl new_factory rs in
  key_find (f_map f) (grid_key (mkReq x y z c)) = None ->
  forall p f', createMaterialMap l fl f (mkReq x y z c) = (Ok p, f') ->
  fst (createMaterialMap l fl f' (mkReq x y z c')) = Ok p /\ In (p, mkReq x y z c) (f_objs f').
Proof.
  intros l fl rs x y z c c' F f N p f' H. split.
  - apply (again_same l fl f (mkReq x y z c) (mkReq x y z c') p f' [] H). repeat split.
  - unfold createMaterialMap in H. rewrite N, F in H. injection H as <- <-. now left.
Qed.
Lemma failed_again : forall fl f r e f', createMaterialMap true fl f r = (Throw e, f') -> fst (createMaterialMap true fl f' r) = Ok 0%Z.
Proof.
  intros fl f r e f' H. unfold createMaterialMap in H. destruct (key_find (f_map f) (grid_key r)) eqn:E; [discriminate|]. destruct (fl r); [|discriminate].
  injection H as <- <-. unfold createMaterialMap. cbn [f_map key_find]. rewrite (proj2 (eq_keys_iff _ _) eq_refl). reflexivity.
Qed.
Lemma failed_again_late : forall fl f r e f', createMaterialMap false fl f r = (Throw e, f') -> f' = f /\ createMaterialMap false fl f' r = (Throw e, f').
Proof.
  intros fl f r e f' H. pose proof H as H0. unfold createMaterialMap in H. destruct (key_find (f_map f) (grid_key r)) eqn:E; [discriminate|]. destruct (fl r); [|discriminate].
  injection H as <- <-. auto.
Qed.
