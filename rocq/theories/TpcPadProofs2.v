(** Proofs about finding a pad of a TPC from its centre (C86). *)
From Coq Require Import ZArith List String Bool Reals Lra Lia.
From Verif Require Import Base RBase DiskBase FpaModel DiskSpec FpaProofs TpcModuleModel TpcModel TpcSpec TpcModuleProofs TpcModuleProofs2 TpcModuleProofs3 TpcModuleProofs4 TpcModuleProofs6 TpcProofs TpcProofs2 TpcPadSpec TpcPadProofs DiskProofs Trig.
From Verif Require RectModel RectSpec RectProofs2 RectProofs3 RectProofs5.
Import ListNotations.
Open Scope R_scope.

(** ** one rectangular layout *)
Lemma clamp_id : forall lo hi v, lo <= v <= hi -> RectSpec.clampR lo hi v = v.
Proof. intros lo hi v H. unfold RectSpec.clampR. rewrite (Rmin_right hi v) by lra. apply Rmax_right. lra. Qed.

Lemma rect_nearest_own : forall x0 x1 y0 hr q, RectSpec.built x0 x1 y0 hr q ->
  let E := RectSpec.expected_rows x0 x1 hr in
  RectSpec.indexable E -> RectSpec.full_height E -> forall H, 0 < H -> Forall (fun s => RectSpec.s_h s = H) E ->
  forall i s j p, nth_error E i = Some s -> (0 <= j < RectSpec.s_n s)%Z -> 0 < RectSpec.pitch x0 x1 s ->
  RectModel.getPadIndex q (Z.of_nat i) j = Ok p ->
  exists cx cy, RectModel.getPadCenter q p = Ok (cx, cy) /\ RectModel.getNearestPad 2 q cx cy = Some (Ok p).
Proof.
  intros x0 x1 y0 hr q B E HI HF H HH HU i s j p Hs Hj Hw Hp.
  assert (NE : E <> []) by (intros X; rewrite X in Hs; destruct i; discriminate).
  destruct (RectProofs5.rect_rows_tile x0 x1 y0 hr q B) as (_ & _ & _ & T). fold E in T.
  destruct (T i s Hs) as (_ & _ & Ti). destruct (Ti HI j Hj) as (p' & cx & cy & P & _ & _ & _ & C & Cy & _ & _ & Cx & _ & _ & L & Rr).
  rewrite Hp in P. injection P as <-. exists cx, cy. split; [exact C|].
  destruct (RectProofs5.rect_nearest_uniform x0 x1 y0 hr q B HI HF H HH NE HU cx cy) as (i' & s' & j' & p' & N & P' & A). fold E in A.
  rewrite N. do 2 f_equal. destruct A as (Hs' & Hj' & Y & _ & _ & X).
  assert (Hh : RectSpec.s_h s = H) by (apply (proj1 (Forall_forall _ _) HU s); now apply nth_error_In with i).
  assert (Hh' : RectSpec.s_h s' = H) by (apply (proj1 (Forall_forall _ _) HU s'); now apply nth_error_In with i').
  assert (Li : (i < List.length E)%nat) by (apply nth_error_Some; congruence).
  assert (Li' : (i' < List.length E)%nat) by (apply nth_error_Some; congruence).
  rewrite (RectProofs3.bottom_uniform (y0 := y0) H HU i ltac:(lia)) in Cy.
  rewrite (RectProofs3.bottom_uniform (y0 := y0) H HU i' ltac:(lia)) in Y.
  rewrite (RectProofs3.heights_uniform (y0 := y0) H HU) in Y. rewrite Hh in Cy. rewrite Hh' in Y.
  assert (B1 : 0 <= INR i) by apply pos_INR. assert (B2 : INR i + 1 <= INR (List.length E)) by (rewrite <- S_INR; apply le_INR; lia).
  assert (M1 : 0 <= INR i * H) by (apply Rmult_le_pos; lra). assert (M2 : (INR i + 1) * H <= INR (List.length E) * H) by (apply Rmult_le_compat_r; lra).
  rewrite clamp_id in Y by lra.
  assert (i' = i).
  { destruct (lt_eq_lt_dec i' i) as [[Q|Q]|Q]; [exfalso|exact Q|exfalso].
    - assert (INR i' + 1 <= INR i) by (rewrite <- S_INR; apply le_INR; lia).
      assert ((INR i' + 1) * H <= INR i * H) by (apply Rmult_le_compat_r; lra). lra.
    - assert (INR i + 1 <= INR i') by (rewrite <- S_INR; apply le_INR; lia).
      assert ((INR i + 1) * H <= INR i' * H) by (apply Rmult_le_compat_r; lra). lra. }
  subst i'. rewrite Hs in Hs'. injection Hs' as <-.
  assert (G : 0 <= RectSpec.s_left s /\ 0 <= RectSpec.s_right s).
  { pose proof (RectProofs2.good_nth (RectProofs.built_rep _ _ _ _ _ B) i s Hs) as G. unfold RectProofs.good in G. tauto. }
  set (w := RectSpec.pitch x0 x1 s) in *. assert (Cl : RectSpec.cell_left x0 x1 s (j + 1) = RectSpec.cell_left x0 x1 s j + w).
  { unfold RectSpec.cell_left. fold w. rewrite plus_IZR. ring. }
  rewrite clamp_id in X by lra. specialize (X ltac:(lra)).
  unfold RectSpec.cell_left in X, Cx, L, Cl. fold w in X, Cx, L.
  assert (j' = j).
  { destruct (Z.lt_trichotomy j' j) as [Q|[Q|Q]]; [exfalso|exact Q|exfalso].
    - assert (IZR j' + 1 <= IZR j) by (rewrite <- plus_IZR; apply IZR_le; lia).
      assert ((IZR j' + 1) * w <= IZR j * w) by (apply Rmult_le_compat_r; lra). lra.
    - assert (IZR j + 1 <= IZR j') by (rewrite <- plus_IZR; apply IZR_le; lia).
      assert ((IZR j + 1) * w <= IZR j' * w) by (apply Rmult_le_compat_r; lra). lra. }
  subst j'. congruence.
Qed.

(** ** a TPC of rectangular modules *)
Lemma rect_answers : forall w b c0 c1, even_rect (w_heap w b) -> (getTPCCoordinateType (w_heap w b) = POLAR -> 0 <= c0) ->
  exists p d v, module_getNearestPad 2 (w_heap w b) c0 c1 = Some (Ok p) /\ module_getDistanceToPad (w_heap w b) c0 c1 p = Ok d /\
    module_isInsidePad (w_heap w b) c0 c1 p = Ok v /\ module_isInsideAnyPad 2 (w_heap w b) c0 c1 = Some (Ok v) /\
    0 <= d /\ (d = 0 -> v = true).
Proof.
  intros w b c0 c1 (id & q & type & f & h & x0 & x1 & y0 & hr & H & Hm & Hs & B & HI & HF & HH & HU & NE) HT.
  pose proof (made_is _ _ _ _ _ _ Hm) as M.
  assert (T : getTPCCoordinateType (w_heap w b) = type) by (unfold getTPCCoordinateType; now rewrite (md_type _ _ _ _ _ M)).
  rewrite T in HT. assert (NY : not_on_y_axis (LRect q) type h) by (intros _ X; discriminate).
  destruct (pad_queries id (LRect q) type f h (w_heap w b) Hm Hs NY c0 c1 HT) as ([x y] & P & _ & QI & QD & QN).
  destruct (pad_any id (LRect q) type f h (w_heap w b) Hm Hs NY c0 c1 HT) as ([x' y'] & P' & _ & QA).
  change (lay_type (LRect q)) with CARTESIAN in *. rewrite point_cart in P, P'. rewrite <- P in P'. injection P' as -> ->.
  cbn [fst snd lay_inside lay_distance lay_nearest] in *.
  destruct (RectProofs5.rect_nearest_uniform x0 x1 y0 hr q B HI HF H HH NE HU x y) as (i & s & j & p & N & PI' & (Hs' & Hj & _)).
  destruct (RectProofs5.rect_inside_exact x0 x1 y0 hr q B HI i s j p Hs' Hj PI' x y) as (v & d & V & D & I & BD).
  exists p, d, v. specialize (QA 2%nat). rewrite N, V in QA. rewrite QN, QD, QI. repeat split; try assumption.
  - destruct BD as [(px & py & _ & _ & <-) _]. apply sqrt_pos.
  - intros ->. apply I. destruct BD as [(px & py & Px & Py & Z) _]. unfold RectSpec.dist2 in Z.
    apply sqrt_eq_0 in Z; [|pose proof (Rle_0_sqr (x - px)); pose proof (Rle_0_sqr (y - py)); unfold Rsqr in *; lra].
    pose proof (Rle_0_sqr (x - px)) as S1. pose proof (Rle_0_sqr (y - py)) as S2. unfold Rsqr in *.
    assert (E1 : (x - px) * (x - px) = 0) by lra. assert (E2 : (y - py) * (y - py) = 0) by lra.
    apply Rmult_integral in E1. apply Rmult_integral in E2. assert (x = px) by lra. assert (y = py) by lra. subst. split; assumption.
Qed.

Lemma choice_on : forall (l : list Z) (P : Z -> Z -> R -> bool -> Prop), (forall b, In b l -> exists p d v, P b p d v) ->
  exists (p : Z -> Z) (d : Z -> R) (v : Z -> bool), forall b, In b l -> P b (p b) (d b) (v b).
Proof.
  induction l as [|a l IH]; intros P H.
  - exists (fun _ => 0%Z), (fun _ => 0), (fun _ => false). intros b [].
  - destruct (IH P) as (p & d & v & F); [intros; apply H; now right|].
    destruct (H a (or_introl eq_refl)) as (p0 & d0 & v0 & F0).
    exists (fun b => if (b =? a)%Z then p0 else p b), (fun b => if (b =? a)%Z then d0 else d b), (fun b => if (b =? a)%Z then v0 else v b).
    intros b [<-|Hb]; [rewrite Z.eqb_refl; exact F0|]. destruct (Z.eqb_spec b a) as [->|_]; [exact F0|now apply F].
Qed.

Lemma tpc_rect_found : forall w l1 a l2, tpc_reached w -> getModules (w_tpc w) = l1 ++ a :: l2 ->
  (forall b, In b (l1 ++ a :: l2) -> even_rect (w_heap w b)) ->
  forall id q type f h x0 x1 y0 hr, module_made id (LRect q) type f h (w_heap w a) -> side_settled (LRect q) type h ->
  RectSpec.built x0 x1 y0 hr q -> let E := RectSpec.expected_rows x0 x1 hr in
  RectSpec.indexable E -> RectSpec.full_height E -> forall H, 0 < H -> Forall (fun s => RectSpec.s_h s = H) E ->
  forall i s j p, nth_error E i = Some s -> (0 <= j < RectSpec.s_n s)%Z -> 0 < RectSpec.pitch x0 x1 s ->
  RectModel.getPadIndex q (Z.of_nat i) j = Ok p ->
  exists g, module_getPadCenter (w_heap w a) p = Ok g /\
    isInsidePad 2 (w_heap w) (w_tpc w) (fst g) (snd g) = Some (Ok true) /\
    ((forall b, In b l1 -> module_isInsideAnyPad 2 (w_heap w b) (fst g) (snd g) = Some (Ok false)) ->
     getNearestPad 2 (w_heap w) (w_tpc w) (fst g) (snd g) = Some (Ok (mkG p (getModuleID (w_heap w a))))).
Proof.
  intros w l1 a l2 HR HMo Hall id q type f h x0 x1 y0 hr Hm Hs B E HI HF H HH HU i s j p Hi Hj Hw Hp.
  destruct (rect_pads id q type f h (w_heap w a) Hm Hs x0 x1 y0 hr B HI i s j p Hi Hj Hp) as (g & cx & cy & G & C & P & Ins & Dis & Nea).
  destruct (rect_nearest_own x0 x1 y0 hr q B HI HF H HH HU i s j p Hi Hj Hw Hp) as (cx' & cy' & C' & N).
  rewrite C in C'. injection C' as <- <-. specialize (Nea 2%nat). rewrite N in Nea.
  pose proof (made_is _ _ _ _ _ _ Hm) as M.
  destruct (module_lookup w HR) as (_ & _ & TY & _).
  assert (T0 : getCoordinateType (w_tpc w) = POLAR -> 0 <= fst g).
  { intros T. rewrite <- (TY a) in T by (rewrite HMo; apply in_elt). unfold module_getPadCenter in G. rewrite (md_layout _ _ _ _ _ M) in G.
    cbn [lay_center rbind] in G. rewrite C in G. cbn [rbind] in G. apply (localToGlobal_radius _ _ _ g G).
    - exact T.
    - rewrite (md_layout _ _ _ _ _ M). intros X. discriminate.
    - intros L. rewrite (md_layout _ _ _ _ _ M), <- (lig_same_type _ _ _ _ _ M L), <- (md_type _ _ _ _ _ M). exact T. }
  destruct (choice_on (l1 ++ a :: l2) (fun b p d v => module_getNearestPad 2 (w_heap w b) (fst g) (snd g) = Some (Ok p) /\
      module_getDistanceToPad (w_heap w b) (fst g) (snd g) p = Ok d /\ module_isInsidePad (w_heap w b) (fst g) (snd g) p = Ok v /\
      module_isInsideAnyPad 2 (w_heap w b) (fst g) (snd g) = Some (Ok v) /\ 0 <= d /\ (d = 0 -> v = true))) as (pp & dd & vv & F).
  { intros b Hb. apply rect_answers; [now apply Hall|]. rewrite TY by (now rewrite HMo). exact T0. }
  assert (Ia : In a (l1 ++ a :: l2)) by apply in_elt. destruct (F a Ia) as (Fa1 & Fa2 & Fa3 & Fa4 & _).
  rewrite Nea in Fa1. injection Fa1 as Fa1. rewrite <- Fa1 in *. rewrite Dis in Fa2. injection Fa2 as Fa2. rewrite Ins in Fa3. injection Fa3 as Fa3.
  exists g. split; [exact G|]. split.
  - destruct (inside_any w 2 (fst g) (snd g)) as [_ A]. rewrite (A vv).
    + do 2 f_equal. apply existsb_exists. exists a. split; [now rewrite HMo|auto].
    + intros b Hb. rewrite HMo in Hb. apply (F b Hb).
  - intros NI. destruct (nearest_pad w 2 (fst g) (snd g) pp dd) as [A _].
    { intros b Hb. rewrite HMo in Hb. destruct (F b Hb) as (F1 & F2 & _). split; assumption. }
    destruct A as (a' & Na & FM); [rewrite HMo; now destruct l1|]. rewrite Na. rewrite HMo in FM.
    assert (Pos : forall b, In b l1 -> 0 < dd b).
    { intros b Hb. destruct (F b) as (_ & _ & _ & F4 & F5 & F6); [apply in_or_app; now left|].
      destruct (Req_dec (dd b) 0) as [Z|Z]; [|lra]. exfalso. rewrite (F6 Z), (NI b Hb) in F4. discriminate. }
    destruct FM as (k1 & k2 & EQ & K1 & K2). cut (a' = a); [intros ->; now rewrite Fa1|].
    assert (D0 : dd a' = 0).
    { assert (In a' (l1 ++ a :: l2)) as Ia' by (rewrite EQ; apply in_elt). destruct (F a' Ia') as (_ & _ & _ & _ & F5 & _).
      rewrite EQ in Ia. apply in_app_or in Ia. destruct Ia as [Q|[Q|Q]]; [specialize (K1 a Q); lra|now rewrite Q|specialize (K2 a Q); lra]. }
    destruct (Z.eq_dec a' a) as [Q|Q]; [exact Q|exfalso].
    assert (L : List.length k1 = List.length l1 \/ (List.length k1 < List.length l1)%nat \/ (List.length l1 < List.length k1)%nat) by lia.
    destruct L as [L|[L|L]].
    + assert (X : nth_error (l1 ++ a :: l2) (List.length l1) = nth_error (k1 ++ a' :: k2) (List.length l1)) by now rewrite EQ.
      rewrite nth_error_app2, Nat.sub_diag in X by lia. rewrite <- L, nth_error_app2, Nat.sub_diag in X by lia. cbn in X. congruence.
    + assert (X : nth_error (l1 ++ a :: l2) (List.length k1) = nth_error (k1 ++ a' :: k2) (List.length k1)) by now rewrite EQ.
      rewrite nth_error_app1 in X by lia. rewrite nth_error_app2, Nat.sub_diag in X by lia. cbn in X.
      pose proof (Pos a' (nth_error_In _ _ X)). lra.
    + assert (X : nth_error (l1 ++ a :: l2) (List.length l1) = nth_error (k1 ++ a' :: k2) (List.length l1)) by now rewrite EQ.
      rewrite nth_error_app2, Nat.sub_diag in X by lia. rewrite nth_error_app1 in X by lia. cbn in X. symmetry in X.
      pose proof (K1 a (nth_error_In _ _ X)). lra.
Qed.

(** ** any modules that answer *)
Lemma first_min_zero : forall (d : Z -> R) l1 a l2 a', first_min d (l1 ++ a :: l2) a' -> d a = 0 ->
  (forall b, In b l1 -> 0 < d b) -> (forall b, In b l2 -> 0 <= d b) -> a' = a.
Proof.
  intros d l1 a l2 a' (k1 & k2 & EQ & K1 & K2) D0 Pos Non.
  destruct (Z.eq_dec a' a) as [Q|Q]; [exact Q|exfalso].
  assert (L : List.length k1 = List.length l1 \/ (List.length k1 < List.length l1)%nat \/ (List.length l1 < List.length k1)%nat) by lia.
  destruct L as [L|[L|L]].
  - assert (X : nth_error (l1 ++ a :: l2) (List.length l1) = nth_error (k1 ++ a' :: k2) (List.length l1)) by now rewrite EQ.
    rewrite nth_error_app2, Nat.sub_diag in X by lia. rewrite <- L, nth_error_app2, Nat.sub_diag in X by lia. cbn in X. congruence.
  - assert (X : nth_error (l1 ++ a :: l2) (List.length k1) = nth_error (k1 ++ a' :: k2) (List.length k1)) by now rewrite EQ.
    rewrite nth_error_app1 in X by lia. rewrite nth_error_app2, Nat.sub_diag in X by lia. cbn in X.
    assert (Ia : In a (k1 ++ a' :: k2)) by (rewrite <- EQ; apply in_elt). pose proof (Pos a' (nth_error_In _ _ X)).
    apply in_app_or in Ia. destruct Ia as [W|[W|W]]; [specialize (K1 a W); lra|congruence|specialize (K2 a W); lra].
  - assert (X : nth_error (l1 ++ a :: l2) (List.length l1) = nth_error (k1 ++ a' :: k2) (List.length l1)) by now rewrite EQ.
    rewrite nth_error_app2, Nat.sub_diag in X by lia. rewrite nth_error_app1 in X by lia. cbn in X. symmetry in X.
    pose proof (K1 a (nth_error_In _ _ X)). assert (Ia : In a' (l1 ++ a :: l2)) by (rewrite EQ; apply in_elt).
    apply in_app_or in Ia. destruct Ia as [W|[W|W]]; [specialize (Pos a' W); lra|congruence|specialize (Non a' W); lra].
Qed.

Lemma edge_pdist : forall r a b r' e, same_angle a b -> pdist r a r' e = pdist r b r' e.
Proof. intros r a b r' e S. unfold pdist. pose proof (same_point r a b S) as E. injection E as -> ->. reflexivity. Qed.

Section FpaFound.
Variables (id : Z) (q : fpa) (type : Z) (f : R) (h : list mcall) (m : module) (a : fpa_args) (hq : list Z).
Hypothesis Hm : module_made id (LFpa q) type f h m.
Hypothesis Hs : side_settled (LFpa q) type h.
Hypothesis Hy : not_on_y_axis (LFpa q) type h.
Hypothesis HM : fpa_made a hq q.
Hypothesis HS : fpa_sane a.
Hypothesis Mv : type = CARTESIAN \/ pl_x (asked type h) <> 0.

Lemma local_turn : forall c0 c1 l, globalToLocal m c0 c1 = Ok l -> 0 <= snd l < 2 * PI.
Proof.
  intros c0 c1 l EL. pose proof (made_is _ _ _ _ _ _ Hm) as M.
  assert (LF : m_lig m = false).
  { rewrite (md_lig _ _ _ _ _ M). destruct Mv as [->|Mv']; [reflexivity|].
    apply not_true_iff_false. intros L. rewrite !andb_true_iff, !Reqb_true in L. apply Mv'. unfold asked.
    destruct (last_offset h) as [o0 o1]. cbn [fst snd] in L. destruct L as [[[[_ _] ->] ->] _].
    destruct (proj1 Hm) as [-> | ->]; [reflexivity|]. rewrite point_polar. cbn. lra. }
  unfold globalToLocal in EL. rewrite LF, (md_type _ _ _ _ _ M), (md_layout _ _ _ _ _ M) in EL.
  cbn [lay_type] in EL. change (POLAR =? POLAR)%Z with true in EL. cbn [andb] in EL.
  destruct (proj1 Hm) as [T|T]; rewrite T in EL; cbn [Z.eqb POLAR CARTESIAN Pos.eqb] in EL.
  - injection EL as <-. cbn [snd]. apply polar_back_range.
  - destruct Mv as [Mv'|Mv']; [rewrite Mv' in T; discriminate|].
    pose proof (md_offc _ _ _ _ _ M) as OC. destruct (Reqb_spec (m_offc0 m) 0) as [Z|Z].
    { exfalso. apply Mv'. unfold asked. cbn [pl_x]. destruct (point type (last_offset h)). injection OC as <- _. exact Z. }
    cbn [andb] in EL. injection EL as <-. cbn [snd]. apply polar_back_range.
Qed.

Lemma fpa_own : forall i j, fpa_pad a i j ->
  exists g l, module_getPadCenter m (code i j) = Ok g /\ (type = POLAR -> 0 <= fst g) /\
    0 < (fpa_r a i + fpa_r a (i + 1)) / 2 /\ 0 <= snd l < 2 * PI /\
    fst l = (fpa_r a i + fpa_r a (i + 1)) / 2 /\ same_angle (snd l) ((fpa_phi a j + fpa_phi a (j + 1)) / 2) /\
    module_isInsidePad m (fst g) (snd g) (code i j) = Ok (fpa_isInsidePad q (fst l) (snd l) (code i j)) /\
    module_getDistanceToPad m (fst g) (snd g) (code i j) = Ok (fpa_getDistanceToPad q (fst l) (snd l) (code i j)) /\
    (forall n, module_getNearestPad n m (fst g) (snd g) = Some (Ok (code i j))).
Proof.
  intros i j HP. destruct (fpa_pad_centre id q type f h m a hq Hm Hs HM HS i j HP) as (g & G & P & R & C0 & CP & U).
  destruct (fpa_pad_found id q type f h m a hq Hm Hs Hy HM HS i j HP) as (g' & G' & _ & N). rewrite G in G'. injection G' as <-.
  destruct (local_point id (LFpa q) type f h m Hm Hs Hy (fst g) (snd g) R) as (l & EL & PL & R0).
  rewrite <- surjective_pairing in PL. change (lay_type (LFpa q)) with POLAR in *.
  destruct (U l PL (R0 eq_refl)) as [E1 E2]. exists g, l. pose proof (made_is _ _ _ _ _ _ Hm) as M.
  split; [exact G|]. split; [exact R|]. split; [exact C0|]. split; [now apply (local_turn (fst g) (snd g))|]. split; [exact E1|]. split; [exact E2|].
  unfold module_isInsidePad, module_getDistanceToPad. rewrite EL, (md_layout _ _ _ _ _ M). cbn [rbind lay_inside lay_distance].
  repeat split. exact N.
Qed.

(** a pad at angles from zero to a full turn knows its centre *)
Lemma fpa_own_above : forall i j, fpa_pad a i j -> 0 <= fpa_phi a j -> fpa_phi a (j + 1) <= 2 * PI ->
  exists g, module_getPadCenter m (code i j) = Ok g /\ (type = POLAR -> 0 <= fst g) /\
    module_isInsidePad m (fst g) (snd g) (code i j) = Ok true /\ module_getDistanceToPad m (fst g) (snd g) (code i j) = Ok 0 /\
    (forall n, module_getNearestPad n m (fst g) (snd g) = Some (Ok (code i j))).
Proof.
  intros i j HP A0 A1. destruct (fpa_own i j HP) as (g & l & G & R & _ & T & E1 & E2 & I & D & N).
  assert (HP' := HP). destruct HP' as [Hi Hj]. destruct (fpa_edges a i j HS Hi Hj) as [_ [_ [_ [_ [Q3 _]]]]].
  assert (E3 : snd l = (fpa_phi a j + fpa_phi a (j + 1)) / 2) by (apply (same_in_turn 0); [exact E2|lra|lra]).
  pose proof (fpa_centre_inside a hq q HM HS i j HP) as (C & CI & CD & _). rewrite C in CI, CD. cbn [fst snd] in CI, CD.
  rewrite E1, E3 in I, D. rewrite CI in I. rewrite CD in D. exists g. repeat split; assumption.
Qed.

(** a pad below zero is told to be as far from its centre as its straight edges are *)
Lemma fpa_own_below : forall i j, fpa_pad a i j -> fpa_phi a (j + 1) < 0 -> fpa_phi a (j + 1) - fpa_phi a j < 2 * PI ->
  let cr := (fpa_r a i + fpa_r a (i + 1)) / 2 in let cp := (fpa_phi a j + fpa_phi a (j + 1)) / 2 in
  exists g d, module_getPadCenter m (code i j) = Ok g /\ (type = POLAR -> 0 <= fst g) /\
    module_getDistanceToPad m (fst g) (snd g) (code i j) = Ok d /\ 0 < d /\
    (exists r e, fpa_r a i <= r <= fpa_r a (i + 1) /\ (e = fpa_phi a j \/ e = fpa_phi a (j + 1)) /\ pdist cr cp r e = d) /\
    (forall r e, fpa_r a i <= r <= fpa_r a (i + 1) -> e = fpa_phi a j \/ e = fpa_phi a (j + 1) -> d <= pdist cr cp r e) /\
    (forall n, module_getNearestPad n m (fst g) (snd g) = Some (Ok (code i j))).
Proof.
  intros i j HP Neg Wid cr cp. destruct (fpa_own i j HP) as (g & l & G & R & C0 & T & E1 & E2 & I & D & N).
  assert (HP' := HP). destruct HP' as [Hi Hj]. destruct (fpa_edges a i j HS Hi Hj) as [Eh [Ep [Q1 [Q2 [Q3 Q4]]]]].
  fold cr in C0, E1. fold cp in E2. exists g, (fpa_getDistanceToPad q (fst l) (snd l) (code i j)).
  split; [exact G|]. split; [exact R|]. split; [exact D|]. rewrite E1.
  set (d := fpa_getDistanceToPad q cr (snd l) (code i j)).
  assert (K : d = if Rltb (edge_distance cr (snd l) (fpa_r a i) (fpa_r a (i + 1)) (fpa_phi a j)) (edge_distance cr (snd l) (fpa_r a i) (fpa_r a (i + 1)) (fpa_phi a (j + 1)))
                  then edge_distance cr (snd l) (fpa_r a i) (fpa_r a (i + 1)) (fpa_phi a j) else edge_distance cr (snd l) (fpa_r a i) (fpa_r a (i + 1)) (fpa_phi a (j + 1))).
  { unfold d, fpa_getDistanceToPad. pose proof (fpa_made_rep _ _ _ HM) as HR.
    rewrite (fpa_centre_val a q i j HR HS Hi Hj). unfold fpa_getRowHeight, fpa_getPadPitch. rewrite (pr_h a q HR), (pr_p a q HR), <- Eh, <- Ep.
    unfold disk_distance. cbn [fst snd].
    replace ((fpa_r a i + fpa_r a (i + 1)) / 2 - (fpa_r a (i + 1) - fpa_r a i) / 2) with (fpa_r a i) by lra.
    replace ((fpa_r a i + fpa_r a (i + 1)) / 2 + (fpa_r a (i + 1) - fpa_r a i) / 2) with (fpa_r a (i + 1)) by lra.
    replace ((fpa_phi a j + fpa_phi a (j + 1)) / 2 - (fpa_phi a (j + 1) - fpa_phi a j) / 2) with (fpa_phi a j) by lra.
    replace ((fpa_phi a j + fpa_phi a (j + 1)) / 2 + (fpa_phi a (j + 1) - fpa_phi a j) / 2) with (fpa_phi a (j + 1)) by lra.
    destruct (Rleb_spec (snd l) (fpa_phi a (j + 1))); [lra|]. rewrite andb_false_r. reflexivity. }
  clearbody d. assert (L : forall e, (exists r, fpa_r a i <= r <= fpa_r a (i + 1) /\ pdist cr cp r e = edge_distance cr (snd l) (fpa_r a i) (fpa_r a (i + 1)) e) /\
     forall r, fpa_r a i <= r <= fpa_r a (i + 1) -> edge_distance cr (snd l) (fpa_r a i) (fpa_r a (i + 1)) e <= pdist cr cp r e).
  { intros e. destruct (edge_distance_is cr (snd l) (fpa_r a i) (fpa_r a (i + 1)) e ltac:(lra)) as [(r & Hr & E) A]. split.
    - exists r. split; [exact Hr|]. now rewrite <- (edge_pdist cr _ _ r e E2).
    - intros r' Hr'. rewrite <- (edge_pdist cr _ _ r' e E2). now apply A. }
  destruct (L (fpa_phi a j)) as [(ra & Ra & Ea) La]. destruct (L (fpa_phi a (j + 1))) as [(rb & Rb & Eb) Lb]. clear L.
  assert (Ex : exists r e, fpa_r a i <= r <= fpa_r a (i + 1) /\ (e = fpa_phi a j \/ e = fpa_phi a (j + 1)) /\ pdist cr cp r e = d).
  { rewrite K. destruct (Rltb _ _); [exists ra, (fpa_phi a j)|exists rb, (fpa_phi a (j + 1))]; auto. }
  split; [|split; [exact Ex|split; [|exact N]]].
  - destruct Ex as (r & e & Hr & He & <-). destruct (sqrt_pos ((cr * cos cp - r * cos e) * (cr * cos cp - r * cos e) + (cr * sin cp - r * sin e) * (cr * sin cp - r * sin e))) as [X|X]; [exact X|].
    exfalso. symmetry in X. change (pdist cr cp r e = 0) in X. assert (HS' := HS). destruct HS' as [Hrr _]. apply pdist_zero in X; [|lra|lra].
    destruct X as [_ X].
    assert (Y : cos ((fpa_phi a (j + 1) - fpa_phi a j) / 2) = 1).
    { destruct He as [-> | ->]; [rewrite <- X; f_equal; unfold cp; lra|]. rewrite <- cos_neg, <- X. f_equal. unfold cp. lra. }
    assert (W : cos 0 > cos ((fpa_phi a (j + 1) - fpa_phi a j) / 2)) by (apply cos_decreasing_1; lra). rewrite cos_0 in W. lra.
  - intros r e Hr He. rewrite K. destruct (Rltb_spec (edge_distance cr (snd l) (fpa_r a i) (fpa_r a (i + 1)) (fpa_phi a j)) (edge_distance cr (snd l) (fpa_r a i) (fpa_r a (i + 1)) (fpa_phi a (j + 1)))); destruct He as [-> | ->];
      specialize (La r Hr); specialize (Lb r Hr); lra.
Qed.
End FpaFound.

Lemma tpc_fpa_found : forall w l1 a l2, getModules (w_tpc w) = l1 ++ a :: l2 ->
  forall id q type f h args hq, module_made id (LFpa q) type f h (w_heap w a) -> side_settled (LFpa q) type h ->
  not_on_y_axis (LFpa q) type h -> type = CARTESIAN \/ pl_x (asked type h) <> 0 -> fpa_made args hq q -> fpa_sane args ->
  forall i j, fpa_pad args i j -> 0 <= fpa_phi args j -> fpa_phi args (j + 1) <= 2 * PI ->
  exists g, module_getPadCenter (w_heap w a) (code i j) = Ok g /\
    forall fuel p d, (forall b, In b (getModules (w_tpc w)) -> module_getNearestPad fuel (w_heap w b) (fst g) (snd g) = Some (Ok (p b)) /\
        module_getDistanceToPad (w_heap w b) (fst g) (snd g) (p b) = Ok (d b)) ->
      (forall b, In b l1 -> 0 < d b) -> (forall b, In b l2 -> 0 <= d b) ->
      getNearestPad fuel (w_heap w) (w_tpc w) (fst g) (snd g) = Some (Ok (mkG (code i j) (getModuleID (w_heap w a)))).
Proof.
  intros w l1 a l2 HMo id q type f h args hq Hm Hs Hy Mv HM HS i j HP A0 A1.
  destruct (fpa_own_above id q type f h _ args hq Hm Hs Hy HM HS Mv i j HP A0 A1) as (g & G & _ & I & D & N).
  exists g. split; [exact G|]. intros fuel p d F Pos Non. assert (Ia : In a (getModules (w_tpc w))) by (rewrite HMo; apply in_elt).
  destruct (F a Ia) as [F1 F2]. rewrite N in F1. injection F1 as F1. rewrite <- F1, D in F2. injection F2 as F2.
  destruct (nearest_pad w fuel (fst g) (snd g) p d F) as [A _]. destruct A as (a' & Na & FM); [rewrite HMo; now destruct l1|].
  rewrite HMo in FM. rewrite (first_min_zero d l1 a l2 a' FM (eq_sym F2) Pos Non) in Na. now rewrite Na, F1.
Qed.

Lemma tpc_fpa_lost : forall w a b, tpc_reached w -> In a (getModules (w_tpc w)) -> In b (getModules (w_tpc w)) ->
  forall id q type f h args hq, module_made id (LFpa q) type f h (w_heap w a) -> side_settled (LFpa q) type h ->
  not_on_y_axis (LFpa q) type h -> type = CARTESIAN \/ pl_x (asked type h) <> 0 -> fpa_made args hq q -> fpa_sane args ->
  forall i j, fpa_pad args i j -> fpa_phi args (j + 1) < 0 -> fpa_phi args (j + 1) - fpa_phi args j < 2 * PI ->
  exists g e, module_getPadCenter (w_heap w a) (code i j) = Ok g /\ module_getDistanceToPad (w_heap w a) (fst g) (snd g) (code i j) = Ok e /\ 0 < e /\
    forall fuel p d, (forall c, In c (getModules (w_tpc w)) -> module_getNearestPad fuel (w_heap w c) (fst g) (snd g) = Some (Ok (p c)) /\
        module_getDistanceToPad (w_heap w c) (fst g) (snd g) (p c) = Ok (d c)) -> d b < e ->
      exists r, getNearestPad fuel (w_heap w) (w_tpc w) (fst g) (snd g) = Some (Ok r) /\ g_mod r <> getModuleID (w_heap w a).
Proof.
  intros w a b HR Ia Ib id q type f h args hq Hm Hs Hy Mv HM HS i j HP Neg Wid.
  destruct (fpa_own_below id q type f h _ args hq Hm Hs Hy HM HS Mv i j HP Neg Wid) as (g & e & G & _ & D & E0 & _ & _ & N).
  exists g, e. split; [exact G|]. split; [exact D|]. split; [exact E0|]. intros fuel p d F Lt.
  destruct (F a Ia) as [F1 F2]. rewrite N in F1. injection F1 as F1. rewrite <- F1, D in F2. injection F2 as F2.
  destruct (nearest_pad w fuel (fst g) (snd g) p d F) as [A _]. destruct A as (a' & Na & FM); [intros X; now rewrite X in Ia|].
  eexists. split; [exact Na|]. cbn [g_mod]. destruct FM as (k1 & k2 & EQ & K1 & K2).
  destruct (module_lookup w HR) as (ND & _). rewrite EQ in ND.
  assert (X : a' <> a).
  { intros ->. rewrite EQ in Ib. apply in_app_or in Ib. destruct Ib as [W|[W|W]]; [specialize (K1 b W); lra|subst b; lra|specialize (K2 b W); lra]. }
  rewrite EQ in Ia. intros Y. rewrite map_app in ND. cbn [map] in ND. apply NoDup_remove_2 in ND. apply ND. rewrite <- map_app, Y. apply (in_map (fun a => getModuleID (w_heap w a))).
  apply in_app_or in Ia. apply in_or_app. destruct Ia as [W|[W|W]]; [now left|congruence|now right].
Qed.
