(** Proofs about the pads of a mounted TPC module (C84). *)
From Coq Require Import ZArith List String Bool Reals Lra Lia.
From Verif Require Import Base RBase DiskBase FpaModel DiskSpec FpaProofs TpcModuleModel TpcModel TpcSpec TpcModuleProofs TpcModuleProofs2 TpcModuleProofs3 TpcModuleProofs4 TpcModuleProofs6 DiskProofs Trig.
From Verif Require RectModel RectSpec RectProofs5.
Import ListNotations.
Open Scope R_scope.

Lemma pad_centre : forall id p type f h m, module_made id p type f h m -> side_settled p type h -> forall i,
  match lay_center p i with
  | Ok c => exists g, module_getPadCenter m i = Ok g /\ point type g = mount (asked type h) (point (lay_type p) c)
  | Throw e => module_getPadCenter m i = Throw e
  | UB => module_getPadCenter m i = UB
  end.
Proof.
  intros id p type f h m Hm Hs i. pose proof (made_is _ _ _ _ _ _ Hm) as M. unfold module_getPadCenter.
  rewrite (md_layout _ _ _ _ _ M). destruct (lay_center p i) as [c|e|]; [|reflexivity|reflexivity]. cbn [rbind].
  destruct (local_to_global id p type f h m Hm Hs (fst c) (snd c)) as (g & E & P). exists g. split; [exact E|].
  now rewrite P, <- surjective_pairing.
Qed.

Lemma local_point : forall id p type f h m, module_made id p type f h m -> side_settled p type h ->
  not_on_y_axis p type h -> forall c0 c1, (type = POLAR -> 0 <= c0) ->
  exists l, globalToLocal m c0 c1 = Ok l /\ point (lay_type p) l = unmount (asked type h) (point type (c0, c1)) /\
  (lay_type p = POLAR -> 0 <= fst l).
Proof.
  intros id p type f h m Hm Hs Hy c0 c1 H0. destruct (global_to_local id p type f h m Hm Hs Hy c0 c1) as (l & E & P).
  exists l. split; [exact E|]. split; [exact P|]. intros TP. pose proof (made_is _ _ _ _ _ _ Hm) as M.
  apply (globalToLocal_radius m c0 c1 l E).
  - now rewrite (md_layout _ _ _ _ _ M).
  - now rewrite (md_type _ _ _ _ _ M).
  - destruct (m_lig m) eqn:L; [right|left; reflexivity].
    rewrite (md_type _ _ _ _ _ M), (lig_same_type _ _ _ _ _ M L). exact TP.
Qed.

Lemma pad_queries : forall id p type f h m, module_made id p type f h m -> side_settled p type h ->
  not_on_y_axis p type h -> forall c0 c1, (type = POLAR -> 0 <= c0) ->
  exists l, point (lay_type p) l = unmount (asked type h) (point type (c0, c1)) /\
  (lay_type p = POLAR -> 0 <= fst l) /\
  (forall i, module_isInsidePad m c0 c1 i = lay_inside p (fst l) (snd l) i) /\
  (forall i, module_getDistanceToPad m c0 c1 i = lay_distance p (fst l) (snd l) i) /\
  (forall n, module_getNearestPad n m c0 c1 = lay_nearest n p (fst l) (snd l)).
Proof.
  intros id p type f h m Hm Hs Hy c0 c1 H0. destruct (local_point id p type f h m Hm Hs Hy c0 c1 H0) as (l & E & P & R).
  pose proof (made_is _ _ _ _ _ _ Hm) as M. exists l. split; [exact P|]. split; [exact R|].
  unfold module_isInsidePad, module_getDistanceToPad, module_getNearestPad. rewrite E, (md_layout _ _ _ _ _ M). cbn [rbind obind].
  repeat split.
Qed.

Lemma pad_any : forall id p type f h m, module_made id p type f h m -> side_settled p type h ->
  not_on_y_axis p type h -> forall c0 c1, (type = POLAR -> 0 <= c0) ->
  exists l, point (lay_type p) l = unmount (asked type h) (point type (c0, c1)) /\
  (lay_type p = POLAR -> 0 <= fst l /\ e2 (getLocalModuleExtent m) <= snd l < e2 (getLocalModuleExtent m) + 2 * PI) /\
  forall n, match lay_nearest n p (fst l) (snd l) with
            | Some (Ok i) => module_isInsideAnyPad n m c0 c1 = Some (lay_inside p (fst l) (snd l) i)
            | Some (Throw e) => module_isInsideAnyPad n m c0 c1 = Some (Throw e)
            | Some UB => module_isInsideAnyPad n m c0 c1 = Some UB
            | None => module_isInsideAnyPad n m c0 c1 = None
            end.
Proof.
  intros id p type f h m Hm Hs Hy c0 c1 H0. destruct (local_point id p type f h m Hm Hs Hy c0 c1 H0) as (l & E & P & R).
  pose proof (made_is _ _ _ _ _ _ Hm) as M. exists (fst l, wrap_local m (snd l)). cbn [fst snd].
  assert (W : point (lay_type p) (fst l, wrap_local m (snd l)) = point (lay_type p) l /\
              (lay_type p = POLAR -> e2 (m_localExtent m) <= wrap_local m (snd l) < e2 (m_localExtent m) + 2 * PI)).
  { unfold wrap_local. rewrite (md_layout _ _ _ _ _ M). destruct (lay_type_cases p) as [TP|TP]; rewrite TP; cbn [Z.eqb CARTESIAN POLAR Pos.eqb].
    - split; [now rewrite <- surjective_pairing|]. intros X. discriminate.
    - fold (wrapped (e2 (m_localExtent m)) (snd l)). split; [|intros _; apply wrapped_range].
      rewrite !point_polar. cbn [fst snd]. apply same_point, wrapped_same. }
  destruct W as [W1 W2]. split; [now rewrite W1|]. split; [intros TP; split; [now apply R|now apply W2]|].
  intros n. unfold module_isInsideAnyPad. rewrite E, (md_layout _ _ _ _ _ M). cbn [obind fst snd].
  destruct (lay_nearest n p (fst l) (wrap_local m (snd l))) as [[i|e|]|]; reflexivity.
Qed.

(** ** cartesian layouts *)
Lemma rect_pads : forall id q type f h m, module_made id (LRect q) type f h m -> side_settled (LRect q) type h ->
  forall x0 x1 y0 hr, RectSpec.built x0 x1 y0 hr q ->
  let E := RectSpec.expected_rows x0 x1 hr in RectSpec.indexable E ->
  forall i s j p, nth_error E i = Some s -> (0 <= j < RectSpec.s_n s)%Z -> RectModel.getPadIndex q (Z.of_nat i) j = Ok p ->
  exists g cx cy, module_getPadCenter m p = Ok g /\ RectModel.getPadCenter q p = Ok (cx, cy) /\
    point type g = mount (asked type h) (cx, cy) /\
    module_isInsidePad m (fst g) (snd g) p = Ok true /\ module_getDistanceToPad m (fst g) (snd g) p = Ok 0 /\
    forall n, module_getNearestPad n m (fst g) (snd g) = RectModel.getNearestPad n q cx cy.
Proof.
  intros id q type f h m Hm Hs x0 x1 y0 hr B E HI i s j p Hi Hj Hp.
  destruct (RectProofs5.rect_centre_inside x0 x1 y0 hr q B HI i s j p Hi Hj Hp) as (cx & cy & C & I & D).
  pose proof (pad_centre id (LRect q) type f h m Hm Hs p) as PC. cbn [lay_center] in PC. rewrite C in PC.
  destruct PC as (g & G & P). exists g, cx, cy. split; [exact G|]. split; [exact C|].
  change (lay_type (LRect q)) with CARTESIAN in P. rewrite point_cart in P. split; [exact P|].
  destruct (global_to_local id (LRect q) type f h m Hm Hs) with (c0 := fst g) (c1 := snd g) as (l & EL & PL).
  { intros _ X. discriminate. }
  change (lay_type (LRect q)) with CARTESIAN in PL. rewrite point_cart in PL.
  rewrite <- surjective_pairing, P, unmount_mount in PL. subst l.
  pose proof (made_is _ _ _ _ _ _ Hm) as M.
  unfold module_isInsidePad, module_getDistanceToPad, module_getNearestPad. rewrite EL, (md_layout _ _ _ _ _ M).
  cbn [rbind obind fst snd lay_inside lay_distance lay_nearest]. repeat split; assumption.
Qed.

(** ** disks with a fixed pad angle *)
Lemma localToGlobal_radius : forall m c0 c1 g, localToGlobal m c0 c1 = Ok g -> m_type m = POLAR ->
  (lay_type (m_layout m) = POLAR -> 0 <= c0) -> (m_lig m = true -> lay_type (m_layout m) = POLAR) -> 0 <= fst g.
Proof.
  intros m c0 c1 g H T R0 L. unfold localToGlobal in H. rewrite T in H. destruct (m_lig m).
  - injection H as <-. cbn. auto.
  - destruct (lay_type_cases (m_layout m)) as [TP|TP]; rewrite TP in *; cbn [Z.eqb POLAR CARTESIAN Pos.eqb andb] in H.
    + injection H as <-. cbn [fst]. apply sqrt_pos.
    + destruct (Reqb (m_offc0 m) 0 && Reqb (m_offc1 m) 0)%bool eqn:Q; injection H as <-; cbn [fst]; auto. apply sqrt_pos.
Qed.

Lemma same_in_turn : forall lo x y, same_angle x y -> lo <= x < lo + 2 * PI -> lo <= y < lo + 2 * PI -> x = y.
Proof. intros lo x y H X Y. apply same_near; [exact H|lra]. Qed.

Section Fpa.
Variables (id : Z) (q : fpa) (type : Z) (f : R) (h : list mcall) (m : module) (a : fpa_args) (hq : list Z).
Hypothesis Hm : module_made id (LFpa q) type f h m.
Hypothesis Hs : side_settled (LFpa q) type h.
Hypothesis Hy : not_on_y_axis (LFpa q) type h.
Hypothesis HM : fpa_made a hq q.
Hypothesis HS : fpa_sane a.

Lemma fpa_pad_centre : forall i j, fpa_pad a i j ->
  let c := ((fpa_r a i + fpa_r a (i + 1)) / 2, (fpa_phi a j + fpa_phi a (j + 1)) / 2) in
  exists g, module_getPadCenter m (code i j) = Ok g /\ point type g = mount (asked type h) (point POLAR c) /\
    (type = POLAR -> 0 <= fst g) /\ 0 < fst c /\ pa_phiMin a < snd c < pa_phiMax a /\
    forall l, point POLAR l = unmount (asked type h) (point type g) -> 0 <= fst l -> fst l = fst c /\ same_angle (snd l) (snd c).
Proof.
  intros i j HP c. pose proof (fpa_centre_inside a hq q HM HS i j HP) as (C & _).
  pose proof (pad_centre id (LFpa q) type f h m Hm Hs (code i j)) as PC. cbn [lay_center] in PC.
  change (lay_type (LFpa q)) with POLAR in PC. rewrite C in PC. fold c in PC.
  destruct PC as (g & G & P). exists g. split; [exact G|]. split; [exact P|].
  destruct HP as [Hi Hj]. destruct (fpa_edges a i j HS Hi Hj) as [Eh [Ep [Q1 [Q2 [Q3 Q4]]]]]. assert (HS' := HS). destruct HS' as [Hrr _].
  assert (C0 : 0 < fst c) by (unfold c; cbn [fst]; lra).
  pose proof (made_is _ _ _ _ _ _ Hm) as M.
  split. { intros T. unfold module_getPadCenter in G. rewrite (md_layout _ _ _ _ _ M) in G. cbn [lay_center rbind] in G. rewrite C in G.
    apply (localToGlobal_radius m _ _ g G).
    - now rewrite (md_type _ _ _ _ _ M).
    - intros _. fold c. lra.
    - intros _. now rewrite (md_layout _ _ _ _ _ M). }
  split; [exact C0|]. split; [unfold c; cbn [snd]; lra|].
  intros [r w] PL R0. cbn [fst snd] in *. rewrite P, unmount_mount in PL. destruct c as [cr cp]. cbn [fst snd] in *.
  apply polar_near; assumption.
Qed.

Lemma fpa_pad_found : forall i j, fpa_pad a i j ->
  exists g, module_getPadCenter m (code i j) = Ok g /\
    point type g = mount (asked type h) (point POLAR ((fpa_r a i + fpa_r a (i + 1)) / 2, (fpa_phi a j + fpa_phi a (j + 1)) / 2)) /\
    forall n, module_getNearestPad n m (fst g) (snd g) = Some (Ok (code i j)).
Proof.
  intros i j HP. destruct (fpa_pad_centre i j HP) as (g & G & P & R & C0 & CP & U). exists g. split; [exact G|]. split; [exact P|].
  destruct (pad_queries id (LFpa q) type f h m Hm Hs Hy (fst g) (snd g) R) as (l & PL & R0 & _ & _ & N).
  rewrite <- surjective_pairing in PL. change (lay_type (LFpa q)) with POLAR in *.
  destruct (U l PL (R0 eq_refl)) as [E1 E2]. intros n. rewrite N. cbn [lay_nearest]. f_equal.
  pose proof (fpa_centre_inside a hq q HM HS i j HP) as (C & _ & _ & Ne). rewrite C in Ne. rewrite <- Ne. rewrite E1.
  pose proof (fpa_made_rep _ _ _ HM) as HR.
  rewrite (fpa_nearest_wedge q _ (snd l)), (fpa_nearest_wedge q _ (snd _)).
  all: rewrite ?(fpa_turn_same a q _ _ HR HS CP E2), ?(fpa_turn_same a q _ _ HR HS CP (same_refl _)), ?(pr_phiMin a q HR), ?(pr_phiMax a q HR); try lra.
  reflexivity.
Qed.

Lemma fpa_pad_below_zero : type = CARTESIAN \/ pl_x (asked type h) <> 0 ->
  forall i j, fpa_pad a i j -> fpa_phi a (j + 1) < 0 ->
  exists g, module_getPadCenter m (code i j) = Ok g /\ module_isInsidePad m (fst g) (snd g) (code i j) = Ok false.
Proof.
  intros Mv i j HP Neg. destruct (fpa_pad_centre i j HP) as (g & G & P & R & C0 & CP & U). exists g. split; [exact G|].
  destruct (local_point id (LFpa q) type f h m Hm Hs Hy (fst g) (snd g) R) as (l & EL & PL & R0).
  pose proof (made_is _ _ _ _ _ _ Hm) as M. unfold module_isInsidePad. rewrite EL. cbn [rbind].
  rewrite (md_layout _ _ _ _ _ M). cbn [lay_inside]. f_equal.
  destruct (fpa_isInsidePad q (fst l) (snd l) (code i j)) eqn:I; [|reflexivity]. exfalso.
  apply (fpa_inside_exact a hq q HM HS i j HP) in I.
  assert (A0 : 0 <= snd l); [|lra]. clear - EL M Mv Hm.
  assert (LF : m_lig m = false).
  { rewrite (md_lig _ _ _ _ _ M). destruct Mv as [->|Mv]; [reflexivity|].
    apply not_true_iff_false. intros L. rewrite !andb_true_iff, !Reqb_true in L. apply Mv. unfold asked.
    destruct (last_offset h) as [o0 o1]. cbn [fst snd] in L. destruct L as [[[[_ _] ->] ->] _].
    destruct (proj1 Hm) as [-> | ->]; [reflexivity|]. rewrite point_polar. cbn. lra. }
  unfold globalToLocal in EL. rewrite LF, (md_type _ _ _ _ _ M), (md_layout _ _ _ _ _ M) in EL.
  cbn [lay_type] in EL. change (POLAR =? POLAR)%Z with true in EL. cbn [andb] in EL.
  destruct (proj1 Hm) as [T|T]; rewrite T in EL; cbn [Z.eqb POLAR CARTESIAN Pos.eqb] in EL.
  - injection EL as <-. cbn [snd]. apply polar_back_range.
  - destruct Mv as [Mv|Mv]; [rewrite Mv in T; discriminate|].
    pose proof (md_offc _ _ _ _ _ M) as OC. destruct (Reqb_spec (m_offc0 m) 0) as [Z|Z].
    { exfalso. apply Mv. unfold asked. cbn [pl_x]. destruct (point type (last_offset h)). injection OC as <- _. exact Z. }
    cbn [andb] in EL. injection EL as <-. cbn [snd]. apply polar_back_range.
Qed.

Hypothesis Hlo : e2 (getLocalModuleExtent m) <= pa_phiMin a.
Hypothesis Hhi : pa_phiMax a <= e2 (getLocalModuleExtent m) + 2 * PI.

Lemma fpa_any_pad : forall c0 c1, (type = POLAR -> 0 <= c0) ->
  let u := unmount (asked type h) (point type (c0, c1)) in
  pt_dist u (0, 0) < pa_rMin a + 2147483648 * fpa_getRowHeight q 0 ->
  (~ exists r, 0 <= r /\ u = point POLAR (r, pa_phiMax a)) ->
  exists b, (forall n, module_isInsideAnyPad n m c0 c1 = Some (Ok b)) /\
    (b = true <-> exists i j r phi, fpa_pad a i j /\ fpa_r a i <= r <= fpa_r a (i + 1) /\ fpa_phi a j <= phi <= fpa_phi a (j + 1) /\
       point type (c0, c1) = mount (asked type h) (point POLAR (r, phi))).
Proof.
  intros c0 c1 H0 u Hr Hne. destruct (pad_any id (LFpa q) type f h m Hm Hs Hy c0 c1 H0) as ([r w] & P & RW & A). fold u in P.
  change (lay_type (LFpa q)) with POLAR in *. destruct (RW eq_refl) as [R0 W]. cbn [fst snd lay_nearest] in *.
  assert (Hr' : 0 <= r < pa_rMin a + 2147483648 * fpa_getRowHeight q 0).
  { split; [exact R0|]. rewrite <- P, point_polar in Hr. cbn [fst snd] in Hr. unfold pt_dist, RectSpec.dist2 in Hr. cbn [fst snd] in Hr.
    rewrite !Rminus_0_r in Hr. rewrite <- (norm_polar r w R0). exact Hr. }
  assert (Hw : ~ same_angle w (pa_phiMax a)).
  { intros S. apply Hne. exists r. split; [exact R0|]. rewrite <- P, !point_polar. cbn [fst snd]. now apply same_point. }
  destruct (fpa_nearest_total a hq q HM HS r w Hr' Hw) as (i & j & N & HP). specialize (A). rewrite N in A.
  exists (fpa_isInsidePad q r w (code i j)). split; [exact A|]. rewrite (fpa_inside_exact a hq q HM HS i j HP r w). split.
  - intros [I1 I2]. exists i, j, r, w. repeat split; try tauto; try lra; try apply HP. rewrite P. unfold u. now rewrite mount_unmount.
  - intros (i' & j' & r' & phi & HP' & Rr & Pp & Q). destruct HP' as [Hi' Hj'].
    destruct (fpa_edges a i' j' HS Hi' Hj') as [_ [_ [Q1 [Q2 [Q3 Q4]]]]]. assert (HS' := HS). destruct HS' as [Hrr [Hn [Hp Hq]]].
    assert (PU : point POLAR (r, w) = point POLAR (r', phi)) by (rewrite P; unfold u; now rewrite Q, unmount_mount).
    destruct (Req_dec r' 0) as [Z|Z].
    { exfalso. apply Hne. exists 0. split; [lra|]. rewrite <- P, PU, Z, !point_polar. cbn [fst snd]. now rewrite !Rmult_0_l. }
    destruct (polar_near r w r' phi R0 ltac:(lra) PU) as [-> SA].
    assert (Hphi : phi < pa_phiMax a).
    { destruct (Rlt_le_dec phi (pa_phiMax a)) as [L|L]; [exact L|]. exfalso. apply Hw. replace (pa_phiMax a) with phi by lra. exact SA. }
    assert (Ew : w = phi) by (apply (same_in_turn (e2 (getLocalModuleExtent m))); [exact SA|exact W|lra]). subst w.
    destruct (fpa_nearest_cell a hq q HM HS r' phi phi Hr') as (i2 & j2 & N2 & HP2 & B1 & B2 & B3 & B4).
    { left. split; [reflexivity|lra]. }
    rewrite N in N2. injection N2 as CC.
    assert (i = i2 /\ j = j2) as [<- <-].
    { destruct (fpa_index_lossless a hq q HM HS i j HP) as (_ & I1 & I2 & _). destruct (fpa_index_lossless a hq q HM HS i2 j2 HP2) as (_ & I3 & I4 & _).
      rewrite CC in I1, I2. split; congruence. }
    split; [|lra]. destruct (Rlt_le_dec r' (pa_rMax a)) as [L|L]; [specialize (B4 ltac:(lra)); lra|].
    specialize (B3 L). destruct HP as [Hi Hj]. destruct (fpa_edges a i j HS Hi Hj) as [_ [_ [T1 [T2 [T3 T4]]]]].
    assert (TT : fpa_r a (i + 1) = pa_rMax a).
    { rewrite B3. unfold fpa_r. replace (pa_nRow a - 1 + 1)%Z with (pa_nRow a) by lia. field. apply not_0_IZR. lia. }
    lra.
Qed.

Lemma fpa_any_edge : forall c0 c1 r, (type = POLAR -> 0 <= c0) -> pa_phiMax a < e2 (getLocalModuleExtent m) + 2 * PI ->
  0 < r < pa_rMin a + 2147483648 * fpa_getRowHeight q 0 ->
  point type (c0, c1) = mount (asked type h) (point POLAR (r, pa_phiMax a)) ->
  exists e, forall n, module_isInsideAnyPad n m c0 c1 = Some (Throw e).
Proof.
  intros c0 c1 r H0 Hx Hr Q. destruct (pad_any id (LFpa q) type f h m Hm Hs Hy c0 c1 H0) as ([r' w] & P & RW & A).
  change (lay_type (LFpa q)) with POLAR in *. destruct (RW eq_refl) as [R0 W]. cbn [fst snd lay_nearest] in *.
  rewrite Q, unmount_mount in P. destruct (polar_near r' w r _ R0 ltac:(lra) P) as [-> SA].
  assert (HS' := HS). destruct HS' as [Hrr [Hn [Hp Hq]]].
  assert (Ew : w = pa_phiMax a) by (apply (same_in_turn (e2 (getLocalModuleExtent m))); [exact SA|exact W|lra]). subst w.
  destruct (fpa_nearest_edge_throws a hq q HM HS r ltac:(lra)) as [e E]. exists e. intros n. specialize (A n). now rewrite E in A.
Qed.
End Fpa.
