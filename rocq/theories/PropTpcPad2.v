(** C86: finding the pads of a TPC from their centres. *)
From Coq Require Import ZArith List String Bool Reals Lra Lia.
From Verif Require Import Base RBase DiskBase FpaModel DiskSpec FpaProofs TpcModuleModel TpcModel TpcSpec TpcModuleProofs TpcModuleProofs3 TpcModuleProofs4 TpcModuleProofs6 TpcProofs TpcProofs2 TpcPadSpec TpcPadProofs TpcPadProofs2.
From Verif Require RectModel RectSpec RectProofs5 PropRect.
Import ListNotations.
Open Scope R_scope.

(** A TPC of two modules is made by two calls. *)
Lemma pair_tpc : forall m1 m2, getTPCCoordinateType m1 = CARTESIAN -> getTPCCoordinateType m2 = CARTESIAN ->
  getModuleID m1 <> getModuleID m2 ->
  exists w, tpc_reached w /\ getModules (w_tpc w) = [1; 2]%Z /\ w_heap w 1%Z = m1 /\ w_heap w 2%Z = m2.
Proof.
  intros m1 m2 T1 T2 ID. pose (h := fun a : Z => if (a =? 1)%Z then m1 else m2).
  assert (B1 : h 1%Z = m1) by reflexivity. assert (B2 : h 2%Z = m2) by reflexivity. clearbody h.
  set (w0 := mkW h (new_tpc 4 CARTESIAN)).
  assert (K0 : t_type (new_tpc 4 CARTESIAN) = CARTESIAN) by (unfold new_tpc; cbn [t_type]; destruct (Reqb_spec 4 (-1)); [lra|reflexivity]).
  assert (R0 : tpc_reached w0) by (exists 4, CARTESIAN, h, []; reflexivity).
  destruct (module_add w0 1 R0) as (A & _). destruct A as (w1 & C1 & M1 & H1 & _ & _ & Y1).
  { split; [cbn [w0 w_heap w_tpc]; rewrite B1, T1; unfold getCoordinateType; now rewrite K0|]. intros b []. }
  assert (R1 : tpc_reached w1) by (exists 4, CARTESIAN, h, [TAdd (Some 1%Z)]; cbn [tpc_run]; fold w0; now rewrite C1).
  destruct (module_add w1 2 R1) as (A & _). destruct A as (w2 & C2 & M2 & H2 & _).
  { split; [rewrite H1; cbn [w0 w_heap]; rewrite B2, T2, Y1; unfold getCoordinateType; cbn [w0 w_tpc]; now rewrite K0|].
    intros b Hb. rewrite M1 in Hb. destruct Hb as [<-|[]]. rewrite H1. cbn [w0 w_heap]. now rewrite B1, B2. }
  exists w2. split; [exists 4, CARTESIAN, h, [TAdd (Some 1%Z); TAdd (Some 2%Z)]; cbn [tpc_run]; fold w0; rewrite C1; cbn [after]; now rewrite C2|].
  rewrite M2, M1, H2, H1. auto.
Qed.

(** The layout of PropRect (six rows of four pads on 4 x 12), mounted anywhere in a cartesian TPC. *)
Lemma demo_module : forall id x y, exists q m, RectSpec.built 0 4 0 PropRect.demo_calls q /\
  module_made id (LRect q) CARTESIAN 10 [MZ 5; MOffset x y] m /\ side_settled (LRect q) CARTESIAN [MZ 5; MOffset x y] /\ even_rect m /\
  getTPCCoordinateType m = CARTESIAN /\ getModuleID m = id /\ (forall p, unmount (asked CARTESIAN [MZ 5; MOffset x y]) p = (fst p - x, snd p - y)).
Proof.
  intros id x y. destruct PropRect.demo_built as (q & B & HI & HF & NE & HU & _). exists q.
  destruct (history_exists id (LRect q) CARTESIAN 10 [MZ 5; MOffset x y]) as [m Hm]; [left; reflexivity|intros; discriminate|intros; discriminate|].
  exists m. split; [exact B|]. split; [exact Hm|].
  assert (N : negative (last_z [MZ 5; MOffset x y]) = false) by (cbn; rcase; try lra; reflexivity).
  assert (SS : side_settled (LRect q) CARTESIAN [MZ 5; MOffset x y]) by (left; cbn; rcase; try lra; reflexivity).
  split; [exact SS|]. destruct (module_getters _ _ _ _ _ _ Hm) as (I1 & T1 & _).
  split. { exists id, q, CARTESIAN, 10, [MZ 5; MOffset x y], 0, 4, 0, PropRect.demo_calls, 2.
    split; [exact Hm|]. split; [exact SS|]. split; [exact B|]. split; [exact HI|]. split; [exact HF|]. split; [lra|]. split; [exact HU|exact NE]. }
  split; [exact T1|]. split; [exact I1|]. intros [u v]. unfold unmount, asked. rewrite N.
  cbn [pl_angle pl_x pl_y pl_neg point Z.eqb CARTESIAN POLAR Pos.eqb last_angle last_offset fold_left fst snd]. rewrite cos_0, sin_0. f_equal; ring.
Qed.

(** Two such modules side by side meet the hypotheses of the first theorem: pad 0 of row 5 of the
    second one is on no pad of the first. *)
Example two_rect_modules : exists w q h g p, tpc_reached w /\ getModules (w_tpc w) = ([1] ++ 2 :: [])%Z /\
  (forall b, In b ([1] ++ 2 :: [])%Z -> even_rect (w_heap w b)) /\
  module_made 8 (LRect q) CARTESIAN 10 h (w_heap w 2%Z) /\ side_settled (LRect q) CARTESIAN h /\
  RectSpec.built 0 4 0 PropRect.demo_calls q /\ 0 < RectSpec.pitch 0 4 PropRect.demo_row /\
  RectModel.getPadIndex q (Z.of_nat 5) 0 = Ok p /\ module_getPadCenter (w_heap w 2%Z) p = Ok g /\
  forall b, In b [1%Z] -> module_isInsideAnyPad 2 (w_heap w b) (fst g) (snd g) = Some (Ok false).
Proof.
  destruct (demo_module 7 0 0) as (q1 & m1 & B1 & Hm1 & S1 & V1 & T1 & I1 & U1).
  destruct (demo_module 8 10 0) as (q2 & m2 & B2 & Hm2 & S2 & V2 & T2 & I2 & U2).
  destruct (pair_tpc m1 m2 T1 T2) as (w & R & Mo & W1 & W2); [rewrite I1, I2; discriminate|].
  destruct PropRect.demo_built as (_ & _ & HI & HF & NE & HU & _ & N5).
  destruct (RectProofs5.rect_rows_tile 0 4 0 PropRect.demo_calls q2 B2) as (_ & _ & _ & T). destruct (T _ _ N5) as (_ & _ & Ti).
  destruct (Ti HI 0%Z ltac:(cbn; lia)) as (p & cx & cy & P & _).
  destruct (rect_pads 8 q2 CARTESIAN 10 _ m2 Hm2 S2 0 4 0 PropRect.demo_calls B2 HI 5 _ 0 p N5 ltac:(cbn; lia) P) as (g & cx' & cy' & G & C & Pg & _).
  destruct (Ti HI 0%Z ltac:(cbn; lia)) as (p' & cx2 & cy2 & P' & _ & _ & _ & C' & _ & _ & _ & Cx & _ & _ & _ & _).
  rewrite P in P'. injection P' as <-. rewrite C in C'. injection C' as <- <-.
  exists w, q2, [MZ 5; MOffset 10 0], g, p. split; [exact R|]. split; [exact Mo|].
  split. { intros b [<-|[<-|[]]]; [rewrite W1|rewrite W2]; assumption. }
  rewrite W2. split; [exact Hm2|]. split; [exact S2|]. split; [exact B2|]. split; [unfold RectSpec.pitch, PropRect.demo_row; cbn; lra|].
  split; [exact P|]. split; [exact G|]. intros b [<-|[]]. rewrite W1.
  assert (Ug : fst g - 10 = cx').
  { rewrite point_cart in Pg. pose proof (U2 g) as X. rewrite Pg in X at 1. rewrite unmount_mount in X. injection X as X _. now rewrite X. }
  assert (Gx : 10 <= fst g).
  { unfold RectSpec.cell_left, RectSpec.pitch, PropRect.demo_row in Cx. cbn in Cx. lra. }
  assert (NY : not_on_y_axis (LRect q1) CARTESIAN [MZ 5; MOffset 0 0]) by (intros X; discriminate).
  destruct (pad_any 7 (LRect q1) CARTESIAN 10 _ m1 Hm1 S1 NY (fst g) (snd g) ltac:(discriminate)) as ([x y] & Q & _ & QA).
  change (lay_type (LRect q1)) with CARTESIAN in Q. rewrite point_cart, U1 in Q. injection Q as Qx Qy.
  specialize (QA 2%nat). cbn [fst snd lay_nearest lay_inside] in QA.
  destruct (RectProofs5.rect_nearest_uniform 0 4 0 _ q1 B1 HI HF 2 ltac:(lra) NE HU x y) as (i & s & j & k & N & PI' & (Hs' & Hj & _)).
  destruct (RectProofs5.rect_inside_exact 0 4 0 _ q1 B1 HI i s j k Hs' Hj PI' x y) as (v & d & V & D & I & _).
  rewrite N, V in QA. rewrite QA. do 2 f_equal. destruct v; [|reflexivity]. exfalso. destruct I as [I _]. destruct (I eq_refl) as [I' _].
  destruct (RectProofs5.rect_rows_tile 0 4 0 PropRect.demo_calls q1 B1) as (_ & _ & _ & TT). destruct (TT _ _ Hs') as (_ & _ & Tj).
  destruct (Tj HI j Hj) as (_ & c1 & c2 & _ & _ & _ & _ & _ & _ & _ & _ & -> & _ & Hr & _ & Hm').
  assert (RectSpec.s_right s = 0). { apply nth_error_In in Hs'. rewrite PropRect.demo_rows in Hs'. apply repeat_spec in Hs'. now subst s. }
  cbn [point CARTESIAN POLAR Z.eqb Pos.eqb fst snd] in Qx. lra.
Qed.

(** In a TPC of modules with rectangular layouts (rows of one height, filled by their pads) the centre
    of every pad is on a pad, and the nearest pad is the pad itself unless a module that was added
    earlier has a pad there too. *)
Theorem C86_rect_found : forall w l1 a l2, tpc_reached w -> getModules (w_tpc w) = l1 ++ a :: l2 ->
  (forall b, In b (l1 ++ a :: l2) -> even_rect (w_heap w b)) ->
  forall id q type f h x0 x1 y0 hr, module_made id (LRect q) type f h (w_heap w a) -> side_settled (LRect q) type h ->
  RectSpec.built x0 x1 y0 hr q -> let E := RectSpec.expected_rows x0 x1 hr in
  RectSpec.indexable E -> RectSpec.full_height E -> forall H, 0 < H -> Forall (fun s => RectSpec.s_h s = H) E ->
  forall i s j p, nth_error E i = Some s -> (0 <= j < RectSpec.s_n s)%Z -> 0 < RectSpec.pitch x0 x1 s ->
  RectModel.getPadIndex q (Z.of_nat i) j = Ok p ->
  exists g, module_getPadCenter (w_heap w a) p = Ok g /\
    isInsidePad 2 (w_heap w) (w_tpc w) (fst g) (snd g) = Some (Ok true) /\
    ((forall b, In b l1 -> module_isInsideAnyPad 2 (w_heap w b) (fst g) (snd g) = Some (Ok false)) ->
     getNearestPad 2 (w_heap w) (w_tpc w) (fst g) (snd g) = Some (Ok (mkG p (getModuleID (w_heap w a))))).
Proof. exact tpc_rect_found. Qed.
Print Assumptions C86_rect_found.

(** The same for a pad at angles from zero to a full turn of a module with a fixed pad angle that was
    moved or is in a cartesian TPC, next to any modules that answer the question. *)
Theorem C86_fpa_found : forall w l1 a l2, getModules (w_tpc w) = l1 ++ a :: l2 ->
  forall id q type f h args hq, module_made id (LFpa q) type f h (w_heap w a) -> side_settled (LFpa q) type h ->
  not_on_y_axis (LFpa q) type h -> type = CARTESIAN \/ pl_x (asked type h) <> 0 -> fpa_made args hq q -> fpa_sane args ->
  forall i j, fpa_pad args i j -> 0 <= fpa_phi args j -> fpa_phi args (j + 1) <= 2 * PI ->
  exists g, module_getPadCenter (w_heap w a) (code i j) = Ok g /\
    forall fuel p d, (forall b, In b (getModules (w_tpc w)) -> module_getNearestPad fuel (w_heap w b) (fst g) (snd g) = Some (Ok (p b)) /\
        module_getDistanceToPad (w_heap w b) (fst g) (snd g) (p b) = Ok (d b)) ->
      (forall b, In b l1 -> 0 < d b) -> (forall b, In b l2 -> 0 <= d b) ->
      getNearestPad fuel (w_heap w) (w_tpc w) (fst g) (snd g) = Some (Ok (mkG (code i j) (getModuleID (w_heap w a)))).
Proof. exact tpc_fpa_found. Qed.
Print Assumptions C86_fpa_found.

(** A pad below the angle zero is reported to be as far away from its own centre as the nearer of its
    two straight edges is. *)
Theorem C86_fpa_own_distance_refuted : forall id q type f h m a hq, module_made id (LFpa q) type f h m -> side_settled (LFpa q) type h ->
  not_on_y_axis (LFpa q) type h -> fpa_made a hq q -> fpa_sane a -> type = CARTESIAN \/ pl_x (asked type h) <> 0 ->
  forall i j, fpa_pad a i j -> fpa_phi a (j + 1) < 0 -> fpa_phi a (j + 1) - fpa_phi a j < 2 * PI ->
  let cr := (fpa_r a i + fpa_r a (i + 1)) / 2 in let cp := (fpa_phi a j + fpa_phi a (j + 1)) / 2 in
  exists g d, module_getPadCenter m (code i j) = Ok g /\ (type = POLAR -> 0 <= fst g) /\
    module_getDistanceToPad m (fst g) (snd g) (code i j) = Ok d /\ 0 < d /\
    (exists r e, fpa_r a i <= r <= fpa_r a (i + 1) /\ (e = fpa_phi a j \/ e = fpa_phi a (j + 1)) /\ pdist cr cp r e = d) /\
    (forall r e, fpa_r a i <= r <= fpa_r a (i + 1) -> e = fpa_phi a j \/ e = fpa_phi a (j + 1) -> d <= pdist cr cp r e) /\
    (forall n, module_getNearestPad n m (fst g) (snd g) = Some (Ok (code i j))).
Proof. exact fpa_own_below. Qed.
Print Assumptions C86_fpa_own_distance_refuted.

(** So the TPC names a pad of another module as the nearest whenever one is closer than that. *)
Theorem C86_fpa_lost_refuted : forall w a b, tpc_reached w -> In a (getModules (w_tpc w)) -> In b (getModules (w_tpc w)) ->
  forall id q type f h args hq, module_made id (LFpa q) type f h (w_heap w a) -> side_settled (LFpa q) type h ->
  not_on_y_axis (LFpa q) type h -> type = CARTESIAN \/ pl_x (asked type h) <> 0 -> fpa_made args hq q -> fpa_sane args ->
  forall i j, fpa_pad args i j -> fpa_phi args (j + 1) < 0 -> fpa_phi args (j + 1) - fpa_phi args j < 2 * PI ->
  exists g e, module_getPadCenter (w_heap w a) (code i j) = Ok g /\ module_getDistanceToPad (w_heap w a) (fst g) (snd g) (code i j) = Ok e /\ 0 < e /\
    forall fuel p d, (forall c, In c (getModules (w_tpc w)) -> module_getNearestPad fuel (w_heap w c) (fst g) (snd g) = Some (Ok (p c)) /\
        module_getDistanceToPad (w_heap w c) (fst g) (snd g) (p c) = Ok (d c)) -> d b < e ->
      exists r, getNearestPad fuel (w_heap w) (w_tpc w) (fst g) (snd g) = Some (Ok r) /\ g_mod r <> getModuleID (w_heap w a).
Proof. exact tpc_fpa_lost. Qed.
Print Assumptions C86_fpa_lost_refuted.

(** A sector of one pad between the angles -3pi/4 and -pi/4, and a rectangular module that starts two
    units outside it. *)
Definition down_sector : fpa_args := mkFpaArgs 10 12 1 (- (3 * PI / 4)) (- (PI / 4)) 1.
Theorem C86_wrong_module_refuted : exists w q g r, tpc_reached w /\ getModules (w_tpc w) = [1; 2]%Z /\
  fpa_made down_sector [] q /\ fpa_sane down_sector /\ fpa_pad down_sector 0 0 /\
  module_made 7 (LFpa q) CARTESIAN 10 [MZ 5] (w_heap w 1%Z) /\ even_rect (w_heap w 2%Z) /\
  module_getPadCenter (w_heap w 1%Z) (code 0 0) = Ok g /\
  module_isInsideAnyPad 2 (w_heap w 1%Z) (fst g) (snd g) = Some (Ok true) /\
  module_isInsideAnyPad 2 (w_heap w 2%Z) (fst g) (snd g) = Some (Ok false) /\
  getNearestPad 2 (w_heap w) (w_tpc w) (fst g) (snd g) = Some (Ok r) /\ g_mod r = getModuleID (w_heap w 2%Z).
Proof.
  pose proof PI2_3_2 as PP. unfold PI2 in PP. pose proof PI_4 as P4.
  assert (HS : fpa_sane down_sector) by (unfold fpa_sane, down_sector; cbn; repeat split; lra || lia).
  destruct (fpa_exists _ HS) as [q HM]. pose proof (fpa_made_rep _ _ _ HM) as HR.
  assert (HP : fpa_pad down_sector 0 0) by (split; cbn; lia).
  assert (R0 : fpa_r down_sector 0 = 10) by (unfold fpa_r, down_sector; cbn; lra).
  assert (R1 : fpa_r down_sector (0 + 1) = 12) by (unfold fpa_r, down_sector; cbn; lra).
  assert (F0 : fpa_phi down_sector 0 = - (3 * PI / 4)) by (unfold fpa_phi, down_sector; cbn; lra).
  assert (F1 : fpa_phi down_sector (0 + 1) = - (PI / 4)) by (unfold fpa_phi, down_sector; cbn; lra).
  assert (E : lay_extent (LFpa q) = mkE 10 12 (- (3 * PI / 4)) (- (PI / 4))).
  { cbn. rewrite (pr_rMin _ _ HR), (pr_rMax _ _ HR), (pr_phiMin _ _ HR), (pr_phiMax _ _ HR). reflexivity. }
  destruct (history_exists 7 (LFpa q) CARTESIAN 10 [MZ 5]) as [m1 Hm1]; [left; reflexivity|intros; discriminate| |].
  { intros _. rewrite E. cbn. split; [lra|]. intros b [X|[]]. discriminate. }
  destruct (module_getters _ _ _ _ _ _ Hm1) as (I1 & T1 & _).
  assert (S1 : side_settled (LFpa q) CARTESIAN [MZ 5]) by (left; cbn; rcase; try lra; reflexivity).
  assert (Y1 : not_on_y_axis (LFpa q) CARTESIAN [MZ 5]) by (intros X; discriminate).
  destruct (demo_module 8 (-2) (-26)) as (q2 & m2 & B2 & Hm2 & S2 & V2 & T2 & I2 & U2).
  destruct (pair_tpc m1 m2 T1 T2) as (w & R & Mo & W1 & W2); [rewrite I1, I2; discriminate|].
  destruct (fpa_pad_centre 7 q CARTESIAN 10 [MZ 5] m1 down_sector [] Hm1 S1 HM HS 0 0 HP) as (g & G & Pg & _).
  destruct (fpa_own_below 7 q CARTESIAN 10 [MZ 5] m1 down_sector [] Hm1 S1 Y1 HM HS (or_introl eq_refl) 0 0 HP ltac:(lra) ltac:(lra))
    as (g' & e & G' & _ & D1 & _ & (r & ed & Hr & He & Ee) & _ & N1).
  rewrite G in G'. injection G' as <-.
  assert (N : negative (last_z [MZ 5]) = false) by (cbn; rcase; try lra; reflexivity).
  rewrite R0, R1, F0, F1 in *.
  assert (CS : cos ((- (3 * PI / 4) + - (PI / 4)) / 2) = 0 /\ sin ((- (3 * PI / 4) + - (PI / 4)) / 2) = -1).
  { replace ((- (3 * PI / 4) + - (PI / 4)) / 2) with (- (PI / 2)) by lra. rewrite cos_neg, sin_neg, cos_PI2, sin_PI2. lra. }
  assert (Gv : g = (0, -11)).
  { rewrite point_polar in Pg. cbn [fst snd] in Pg. rewrite (proj1 CS), (proj2 CS) in Pg. rewrite point_cart in Pg. rewrite Pg. unfold mount, asked. rewrite N.
    cbn [pl_angle pl_x pl_y pl_neg point Z.eqb CARTESIAN POLAR Pos.eqb last_angle last_offset fold_left fst snd]. rewrite cos_0, sin_0. f_equal; lra. }
  subst g. cbn [fst snd] in *.
  assert (Ebig : 8 <= e).
  { rewrite <- Ee, DiskProofs.pdist_eq. apply RectProofs2.sqrt_le_of_sq; [lra|].
    assert (C0 : cos (PI / 4) = sqrt 2 / 2).
    { rewrite cos_PI4. assert (N0 : sqrt 2 <> 0) by (apply Rgt_not_eq, sqrt_lt_R0; lra). pose proof (sqrt_sqrt 2 ltac:(lra)) as SQ.
      apply Rmult_eq_reg_l with (sqrt 2); [|exact N0]. replace (sqrt 2 * (1 / sqrt 2)) with 1 by (field; exact N0). lra. }
    assert (C4 : cos ((- (3 * PI / 4) + - (PI / 4)) / 2 - ed) = sqrt 2 / 2).
    { destruct He as [-> | ->]; [replace ((- (3 * PI / 4) + - (PI / 4)) / 2 - - (3 * PI / 4)) with (PI / 4) by lra|
        replace ((- (3 * PI / 4) + - (PI / 4)) / 2 - - (PI / 4)) with (- (PI / 4)) by lra; rewrite cos_neg];
exact C0. }
    rewrite C4. assert (S2' : sqrt 2 <= 142/100). { apply Rsqr_incr_0; [|apply sqrt_pos|lra]. rewrite Rsqr_sqrt by lra. unfold Rsqr. lra. }
    assert (0 <= (r - 10) * (r - 10)) by apply Rle_0_sqr. assert (r * sqrt 2 <= r * (142/100)) by (apply Rmult_le_compat_l; lra). nra. }
  (* the rectangular module *)
  assert (NY : not_on_y_axis (LRect q2) CARTESIAN [MZ 5; MOffset (-2) (-26)]) by (intros X; discriminate).
  destruct PropRect.demo_built as (_ & _ & HI & HF & NE & HU & _).
  destruct (pad_any 8 (LRect q2) CARTESIAN 10 _ m2 Hm2 S2 NY 0 (-11) ltac:(discriminate)) as ([x y] & Q & _ & QA).
  destruct (pad_queries 8 (LRect q2) CARTESIAN 10 _ m2 Hm2 S2 NY 0 (-11) ltac:(discriminate)) as ([x' y'] & Q' & _ & _ & QD & QN).
  change (lay_type (LRect q2)) with CARTESIAN in *. rewrite point_cart, U2 in Q, Q'.
  cbn [point CARTESIAN POLAR Z.eqb Pos.eqb fst snd] in Q, Q'. injection Q as -> ->. injection Q' as -> ->.
  specialize (QA 2%nat). specialize (QN 2%nat). cbn [fst snd lay_nearest lay_inside lay_distance] in QA, QN, QD.
  destruct (RectProofs5.rect_nearest_uniform 0 4 0 _ q2 B2 HI HF 2 ltac:(lra) NE HU (0 - -2) (-11 - -26)) as (i & s & j & k & Nk & PI' & (Hs' & Hj & Yk & _ & _ & Xk)).
  destruct (RectProofs5.rect_inside_exact 0 4 0 _ q2 B2 HI i s j k Hs' Hj PI' (0 - -2) (-11 - -26)) as (v & d & V & D & I & (_ & BD)).
  rewrite Nk, V in QA. rewrite Nk in QN. specialize (QD k). rewrite D in QD.
  assert (Es : s = PropRect.demo_row). { apply nth_error_In in Hs'. rewrite PropRect.demo_rows in Hs'. now apply repeat_spec in Hs'. }
  assert (Ph : RectSpec.pitch 0 4 s = 1) by (rewrite Es; unfold RectSpec.pitch, PropRect.demo_row; cbn; lra).
  assert (Hh : RectSpec.heights (RectSpec.expected_rows 0 4 PropRect.demo_calls) = 12) by (rewrite PropRect.demo_rows; cbn; lra).
  rewrite Hh in Yk. replace (RectSpec.clampR 0 (0 + 12) (-11 - -26)) with 12 in Yk.
  2:{ unfold RectSpec.clampR. rewrite Rmin_left by lra. rewrite Rmax_right by lra. lra. }
  rewrite (clamp_id 0 4 (0 - -2)) in Xk by lra.
  assert (Sv : RectSpec.s_left s = 0 /\ RectSpec.s_right s = 0 /\ RectSpec.s_h s = 2 /\ RectSpec.s_padH s = 2 /\ RectSpec.s_padW s = 9/10) by (subst s; cbn; repeat split; lra).
  destruct Sv as (SL & SR & SH & SPH & SPW). rewrite SL, SR, Ph in Xk. specialize (Xk ltac:(lra)). rewrite SH in Yk, I, BD. rewrite Ph, SPH, SPW in I, BD.
  set (cl := RectSpec.cell_left 0 4 s j) in *. set (bo := RectSpec.bottom 0 (RectSpec.expected_rows 0 4 PropRect.demo_calls) i) in *.
  assert (bo <= 10).
  { assert (Li : (i <= 5)%nat). { assert (X : (i < List.length (RectSpec.expected_rows 0 4 PropRect.demo_calls))%nat) by (apply nth_error_Some; congruence).
      rewrite PropRect.demo_rows, repeat_length in X. lia. }
    assert (BL : (i <= List.length (RectSpec.expected_rows 0 4 PropRect.demo_calls))%nat) by (rewrite PropRect.demo_rows, repeat_length; lia).
    unfold bo. rewrite (RectProofs3.bottom_uniform (y0 := 0) 2 HU i BL). apply le_INR in Li. cbn [INR] in Li. lra. }
  assert (Vf : v = false). { destruct v; [|reflexivity]. destruct (proj1 I eq_refl) as [_ X]. lra. }
  subst v.
  assert (Ds : d < e).
  { apply Rle_lt_trans with 5; [|lra]. specialize (BD (cl + 1 / 2) (bo + 2 / 2) ltac:(lra) ltac:(lra)). apply Rle_trans with (1 := BD).
    unfold RectSpec.dist2. rewrite <- (sqrt_square 5) by lra. apply sqrt_le_1_alt.
    assert (A1 : -1 <= 0 - -2 - (cl + 1 / 2) <= 1) by lra. assert (A2 : 0 <= -11 - -26 - (bo + 2 / 2) <= 4) by lra.
    set (u := 0 - -2 - (cl + 1 / 2)) in *. set (z := -11 - -26 - (bo + 2 / 2)) in *. nra. }
  exists w, q, (0, -11), (mkG k (getModuleID m2)). cbn [fst snd]. rewrite W1, W2.
  split; [exact R|]. split; [exact Mo|]. split; [exact HM|]. split; [exact HS|]. split; [exact HP|]. split; [exact Hm1|]. split; [exact V2|]. split; [exact G|].
  split; [|split; [exact QA|split; [|reflexivity]]].
  - assert (LE : getLocalModuleExtent m1 = mkE 10 12 (- (3 * PI / 4)) (- (PI / 4))).
    { rewrite (border_polar _ _ _ _ _ _ Hm1 eq_refl); rewrite E; cbn; try lra. f_equal; try lra. rewrite Rmax_left; lra. }
    assert (U1 : unmount (asked CARTESIAN [MZ 5]) (point CARTESIAN (0, -11)) = (0, -11)).
    { unfold unmount, asked. rewrite N. cbn [pl_angle pl_x pl_y pl_neg point Z.eqb CARTESIAN POLAR Pos.eqb last_angle last_offset fold_left fst snd].
      rewrite cos_0, sin_0. f_equal; lra. }
    destruct (fpa_any_pad 7 q CARTESIAN 10 [MZ 5] m1 down_sector [] Hm1 S1 Y1 HM HS) with (c0 := 0) (c1 := -11) as (b & A & Bt).
    + rewrite LE. cbn. lra.
    + rewrite LE. cbn. lra.
    + discriminate.
    + rewrite U1. unfold pt_dist, RectSpec.dist2. cbn [fst snd]. replace ((0 - 0) * (0 - 0) + (-11 - 0) * (-11 - 0)) with (11 * 11) by ring.
      rewrite sqrt_square by lra. unfold fpa_getRowHeight. rewrite (pr_h _ _ HR). cbn. lra.
    + rewrite U1, ?point_polar. intros (rr & Rr & X). rewrite point_polar in X. cbn [fst snd] in X. injection X as X1 X2.
      cbn [down_sector pa_phiMax] in X1, X2. rewrite cos_neg in X1. rewrite sin_neg in X2.
      assert (0 < cos (PI / 4)) by (apply cos_gt_0; lra). assert (0 < sin (PI / 4)) by (apply sin_gt_0; lra).
      destruct (Rle_lt_or_eq_dec 0 rr Rr) as [L|L]; [|subst rr; lra]. assert (0 < rr * cos (PI / 4)) by (apply Rmult_lt_0_compat; lra). lra.
    + rewrite A. do 2 f_equal. apply Bt. exists 0%Z, 0%Z, 11, ((- (3 * PI / 4) + - (PI / 4)) / 2). split; [exact HP|]. rewrite R0, R1, F0, F1.
      split; [lra|]. split; [lra|]. rewrite Pg. do 2 f_equal. f_equal. lra.
  - pose (pp := fun b : Z => if (b =? 1)%Z then code 0 0 else k). pose (dd := fun b : Z => if (b =? 1)%Z then e else d).
    destruct (nearest_pad w 2 0 (-11) pp dd) as [A _].
    { rewrite Mo. intros b [<-|[<-|[]]]; [rewrite W1|rewrite W2]; [split; [apply N1|exact D1]|split; [exact QN|exact QD]]. }
    destruct A as (a' & Na & FM); [rewrite Mo; discriminate|]. rewrite Na. rewrite Mo in FM. destruct FM as (k1 & k2 & EQ & K1 & K2).
    destruct k1 as [|z1 [|z2 k1]].
    + injection EQ as <- <-. specialize (K2 2%Z ltac:(left; reflexivity)). unfold dd in K2. cbn in K2. lra.
    + injection EQ as _ <- _. unfold pp. cbn. now rewrite W2.
    + exfalso. apply (f_equal (@List.length Z)) in EQ. cbn in EQ. rewrite app_length in EQ. cbn in EQ. lia.
Qed.
Print Assumptions C86_wrong_module_refuted.
