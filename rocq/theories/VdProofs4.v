(** Proofs about VersatileDiskRowLayout: phi extent and defects. *)
From Coq Require Import ZArith List String Bool Reals Lra Lia.
From Flocq Require Import Core.Raux.
From Verif Require Import Base RBase BitProofs DiskBase VdModel DiskSpec DiskProofs FpsProofs FpaProofs VdProofs VdProofs2 VdProofs3.
From Verif Require RectSpec RectProofs5.
Import ListNotations.
Open Scope R_scope.

(** ** one accepted call *)
Lemma vd_one : forall rMin a, 0 <= rMin -> vd_good rMin a -> exists l, vd_made rMin [VAdd a] l /\
  vd_story rMin [VAdd a] (more_rows rMin a (Z.to_nat (va_repeat a))) (rMin + IZR (va_repeat a) * va_height a) /\
  v_rows l = rows_from 0 (more_rows rMin a (Z.to_nat (va_repeat a))) /\
  (v_e2 l, v_e3 l) = vd_extent (mkVd (v_nPad l) (v_rows l) rMin rMin 0 0 (v_padIndices l))
     (the_row (va_repeat a - 1) (last_row rMin a (Z.to_nat (va_repeat a)))).
Proof.
  intros rMin a H0 HG. destruct (vd_total rMin [] H0) as [l0 [rows [top [HM [HS HR]]]]].
  destruct (story_fun _ _ _ _ _ _ HS (vs_new rMin)) as [-> ->].
  assert (El : l0 = new_vd rMin) by (unfold vd_made in HM; cbn in HM; congruence). subst l0.
  destruct (vd_add_good rMin [] rMin _ a H0 HR HG) as [l' [E [HR' [En Ee]]]]. exists l'.
  split; [unfold vd_made; cbn [vd_run vd_do]; now rewrite E|].
  split; [apply (vs_add rMin [] [] rMin a (vs_new rMin) HG)|]. split; [apply HR'|]. exact Ee.
Qed.

(** The nearest pad of a point before the start of the row is a pad that does not exist. *)
Lemma vd_before_start : forall rMin a l, 0 <= rMin -> vd_good rMin a -> va_repeat a = 1%Z -> vd_made rMin [VAdd a] l ->
  0 < vd_off (rMin, a) <= vd_pitch (rMin, a) -> forall r phi, 0 <= phi < vd_off (rMin, a) -> phi <= 2 * PI ->
  vd_getNearestPad l r phi = Ok (code 0 65535).
Proof.
  intros rMin a l H0 HG Hrep HM Ho r phi Hphi Hpi. destruct (vd_one rMin a H0 HG) as [l' [HM' [_ [Erows _]]]].
  assert (l' = l) by (unfold vd_made in *; congruence). subst l'. rewrite Hrep in Erows. change (Z.to_nat 1) with 1%nat in Erows.
  rewrite more_rows_S in Erows. change (more_rows (rMin + va_height a) a 0) with (@nil (R * vd_args)) in Erows. cbn [rows_from] in Erows.
  unfold vd_getNearestPad. rewrite Erows. cbn [vd_scan rbind]. set (x := (rMin, a)) in *.
  assert (Hn : 1 <= IZR (va_nPads a)) by (apply (IZR_le 1); destruct HG; lia).
  assert (En : vrow_getNearestPad (the_row (Z.of_nat 0) x) r phi = Ok (code 0 65535)).
  { unfold vrow_getNearestPad. cbv zeta. fold (vturn phi). rewrite vturn_id by lra. rewrite row_pm.
    destruct (Rltb_spec phi (vd_phi x (va_nPads (snd x)))) as [C|C].
    - cbn [v_offset v_padPitch the_row v_rowNumber].
      rewrite (floor_div_val _ _ (-1)); [reflexivity|lra|unfold int_ok; lia|].
      set (q := (phi - vd_off x) / vd_pitch x). assert (Eq : q * vd_pitch x = phi - vd_off x) by (unfold q; field; lra).
      split; [apply Rmult_le_reg_r with (vd_pitch x); simpl; lra|apply Rmult_lt_reg_r with (vd_pitch x); simpl; lra].
    - exfalso. unfold vd_phi in C. cbn [snd x] in C. unfold x in *. cbn [snd] in C. nra. }
  rewrite En. cbn [rbind]. reflexivity.
Qed.

(** A row lying at negative angles only ever offers its first and last pad. *)
Lemma vd_negative_row : forall rMin a l, 0 <= rMin -> vd_good rMin a -> va_repeat a = 1%Z -> (va_nPads a <= 65536)%Z -> vd_made rMin [VAdd a] l ->
  vd_phi (rMin, a) (va_nPads a) <= 0 -> forall r phi,
  vd_getNearestPad l r phi = Ok (code 0 0) \/ vd_getNearestPad l r phi = Ok (code 0 (va_nPads a - 1)).
Proof.
  intros rMin a l H0 HG Hrep Hb HM Ho r phi. destruct (vd_one rMin a H0 HG) as [l' [HM' [_ [Erows _]]]].
  assert (l' = l) by (unfold vd_made in *; congruence). subst l'. rewrite Hrep in Erows. change (Z.to_nat 1) with 1%nat in Erows.
  rewrite more_rows_S in Erows. change (more_rows (rMin + va_height a) a 0) with (@nil (R * vd_args)) in Erows. cbn [rows_from] in Erows.
  unfold vd_getNearestPad. rewrite Erows. cbn [vd_scan rbind]. set (x := (rMin, a)) in *.
  assert (Hn : (0 < va_nPads a)%Z) by apply HG. pose proof (vturn_window phi) as W.
  unfold vrow_getNearestPad. cbv zeta. fold (vturn phi). rewrite row_pm. change (va_nPads (snd x)) with (va_nPads a).
  destruct (Rltb_spec (vturn phi) (vd_phi x (va_nPads a))) as [C|C]; [lra|].
  cbn [v_rowNumber v_nPads the_row]. change (va_nPads (snd x)) with (va_nPads a). change (Z.of_nat 0) with 0%Z. rewrite !pack_code by lia.
  assert (Hne : forall j, (0 <= j < 65536)%Z -> (code 0 j =? -1)%Z = false).
  { intros j Hj. apply Z.eqb_neq. intros E. change (-1)%Z with (code 65535 65535) in E. apply RectProofs5.code_inj in E; lia. }
  destruct (Rltb _ _); cbn [rbind]; rewrite Hne by lia; auto.
Qed.

(** ** phi extent *)
(** Repeated rows: the extent is that of the outermost one, although the inner ones reach further. *)
Lemma vd_extent_repeat : forall rMin a l, 0 <= rMin -> vd_good rMin a -> (2 <= va_repeat a)%Z -> 0 < va_pitch a -> va_offset a = 0 ->
  vd_made rMin [VAdd a] l -> exists p1, vd_getPlaneExtent l = [rMin; rMin + IZR (va_repeat a) * va_height a; 0; p1] /\
    p1 < vd_phi (rMin, a) (va_nPads a).
Proof.
  intros rMin a l H0 HG Hrep Hp Hoff HM. destruct (vd_one rMin a H0 HG) as [l' [HM' [HS' [Erows Ee]]]].
  assert (l' = l) by (unfold vd_made in *; congruence). subst l'. pose proof (vd_rep _ _ _ _ _ H0 HM HS') as HR.
  set (k := Z.to_nat (va_repeat a)) in *. set (y := last_row rMin a k) in *.
  assert (Hh : 0 < va_height a) by apply HG. assert (Hn : 1 <= IZR (va_nPads a)) by (apply (IZR_le 1); destruct HG; lia).
  assert (Hk : 1 <= IZR (Z.of_nat (k - 1))) by (apply (IZR_le 1); unfold k; lia).
  pose proof PI2_pos as PP.
  assert (Hrc : 0 < vd_rc (rMin, a) < vd_rc y) by (unfold vd_rc, y, last_row; cbn [fst snd]; split; nra).
  assert (Hoff0 : forall q : R, snd (q, a) = a) by reflexivity.
  assert (O : forall q, vd_rc (q, a) <> 0 -> vd_off (q, a) = 0).
  { intros q Hq. unfold vd_off. cbn [snd]. rewrite Hoff. unfold Rdiv. rewrite Rmult_0_l.
    destruct (Rltb_spec 0 (- 2 * PI)); [lra|]. destruct (Rleb_spec (2 * PI) 0); [lra|reflexivity]. }
  assert (Oy : vd_off y = 0) by (apply O; unfold y, last_row in *; lra).
  assert (Ox : vd_off (rMin, a) = 0) by (apply O; lra).
  assert (Hpy : 0 < vd_pitch y < vd_pitch (rMin, a)).
  { unfold vd_pitch. cbn [snd y last_row]. split; [apply Rdiv_lt_0_compat; auto; lra|].
    apply Rmult_lt_compat_l; auto. apply Rinv_lt_contravar; [apply Rmult_lt_0_compat; lra|lra]. }
  assert (Hf : vd_pitch y * IZR (va_nPads a) <= 2 * PI).
  { apply (story_row rMin [VAdd a] _ _ (va_repeat a - 1) y H0 HS').
    replace (va_repeat a - 1)%Z with (Z.of_nat (k - 1)) by (unfold k; lia). rewrite nthZ_of_nat. apply more_rows_last. unfold k; lia. }
  assert (Hlen : (List.length (rows_from 0 (more_rows rMin a k)) =? 1)%nat = false).
  { rewrite rows_from_length, more_rows_length. apply Nat.eqb_neq. unfold k. lia. }
  unfold vd_extent in Ee. cbv zeta in Ee. cbn [v_rows v_e2 v_e3] in Ee. rewrite Erows, Hlen in Ee. cbn [orb] in Ee.
  change (v_offset (the_row (va_repeat a - 1) y)) with (vd_off y) in Ee.
  change (v_phiMax (the_row (va_repeat a - 1) y)) with (vd_off y + vd_pitch y * IZR (va_nPads a)) in Ee. rewrite Oy in Ee.
  destruct (Rltb_spec 0 0); [lra|]. destruct (Rltb_spec 0 (0 + vd_pitch y * IZR (va_nPads a))) as [C|C]; [|nra].
  destruct (Rltb_spec (2 * PI) (0 + vd_pitch y * IZR (va_nPads a) - 0)); [lra|].
  injection Ee as E2 E3. unfold vd_getPlaneExtent. rewrite (vr_e0 _ _ _ _ HR), (vr_e1 _ _ _ _ HR), E2, E3.
  eexists. split; [reflexivity|]. unfold vd_phi. rewrite Ox. nra.
Qed.

(** Rows added one by one: the extent is exact. *)
Lemma more_one : forall lo a, more_rows lo a 1 = [(lo, a)].
Proof. intros. rewrite more_rows_S. reflexivity. Qed.
Lemma vd_extent_exact : forall rMin h, 0 <= rMin -> (forall a, In (VAdd a) h -> va_repeat a = 1%Z) ->
  forall l rows top, vd_made rMin h l -> vd_story rMin h rows top -> (forall x, In x rows -> vd_in_turn x) -> rows <> [] ->
  exists p0 p1, vd_getPlaneExtent l = [rMin; top; p0; p1] /\
    (forall x, In x rows -> p0 <= vd_off x /\ vd_phi x (va_nPads (snd x)) <= p1) /\
    (exists x, In x rows /\ p0 = vd_off x) /\ (exists x, In x rows /\ p1 = vd_phi x (va_nPads (snd x))).
Proof.
  intros rMin h H0. induction h as [|c h IH] using rev_ind; intros Hrep l rows top HM HS HT Hne.
  - inversion HS; try (destruct h; discriminate). subst. contradiction.
  - destruct (vd_total rMin h H0) as [l1 [rows1 [top1 [HM1 [HS1 HR1]]]]].
    destruct (story_facts _ _ _ _ H0 HS1) as [Ht1 [_ Hg1]].
    assert (Hrep1 : forall a, In (VAdd a) h -> va_repeat a = 1%Z) by (intros; apply Hrep; apply in_or_app; auto).
    specialize (IH Hrep1 l1 rows1 top1 HM1 HS1). pose proof (vd_rep _ _ _ _ _ H0 HM HS) as HR.
    assert (HM' := HM). unfold vd_made in HM', HM1. rewrite vd_run_app, HM1 in HM'.
    destruct c as [a|r]; cbn [vd_do] in HM'.
    + destruct (good_dec top1 a) as [HG|HB].
      * destruct (story_fun _ _ _ _ _ _ HS (vs_add _ _ _ _ _ HS1 HG)) as [Er Et].
        assert (Ha : va_repeat a = 1%Z) by (apply Hrep; apply in_or_app; right; left; auto).
        fold (more_rows top1 a (Z.to_nat (va_repeat a))) in Er.
        destruct (vd_add_good rMin rows1 top1 l1 a ltac:(lra) HR1 HG) as [l' [E [HR' [En Ee]]]]. rewrite E in HM'. injection HM' as ->.
        rewrite Ha in Er, Ee. change (Z.to_nat 1) with 1%nat in *. rewrite more_one in Er.
        assert (Ely : last_row top1 a 1 = (top1, a)) by (unfold last_row; f_equal; simpl; lra). rewrite Ely in Ee.
        set (x := (top1, a)) in *. assert (Hx : vd_in_turn x) by (apply HT; rewrite Er; apply in_or_app; right; left; auto).
        assert (Hx' := Hx). destruct Hx' as [Hp [Ho [Hm Hn]]].
        assert (Epm : vd_off x + vd_pitch x * IZR (va_nPads (snd x)) = vd_phi x (va_nPads (snd x))) by (unfold vd_phi; lra).
        assert (Hoff : vd_off x <= vd_phi x (va_nPads (snd x))).
        { assert (0 < va_nPads a)%Z by apply HG. assert (0 < IZR (va_nPads (snd x))) by (apply (IZR_lt 0); auto). unfold vd_phi. nra. }
        unfold vd_extent in Ee. cbv zeta in Ee. cbn [v_rows v_e2 v_e3] in Ee.
        rewrite (vr_rows _ _ _ _ HR), Er, rows_from_length, app_length in Ee. cbn [List.length] in Ee.
        match type of Ee with context[the_row ?kk x] => change (v_offset (the_row kk x)) with (vd_off x) in Ee;
          change (v_phiMax (the_row kk x)) with (vd_off x + vd_pitch x * IZR (va_nPads (snd x))) in Ee end. rewrite Epm in Ee.
        unfold vd_getPlaneExtent. rewrite (vr_e0 _ _ _ _ HR), (vr_e1 _ _ _ _ HR).
        destruct rows1 as [|y t].
        -- cbn [List.length Nat.add Nat.eqb orb] in Ee. 
           destruct (Rltb_spec (2 * PI) (vd_phi x (va_nPads (snd x)) - vd_off x)); [lra|]. injection Ee as E2 E3.
           exists (v_e2 l), (v_e3 l). split; [reflexivity|]. rewrite E2, E3. cbn [app] in Er. subst rows.
           split; [intros z [Hz|[]]; rewrite <- Hz; split; apply Rle_refl|]. split; exists x; split; auto; left; auto.
        -- destruct IH as [p0 [p1 [Hext [Hall [[x0 [Hx0 Ep0]] [x1 [Hx1 Ep1]]]]]]].
           { intros z Hz. apply HT. rewrite Er. apply in_or_app. auto. }
           { discriminate. }
           unfold vd_getPlaneExtent in Hext. injection Hext as _ _ Q2 Q3. rewrite Q2, Q3 in Ee.
           assert (Hlen : (List.length (y :: t) + 1 =? 1)%nat = false) by (apply Nat.eqb_neq; cbn; lia).
           change (S (List.length t)) with (List.length (y :: t)) in Ee. rewrite Hlen in Ee. cbn [orb] in Ee.
           assert (HT0 := HT x0 ltac:(rewrite Er; apply in_or_app; auto)). assert (HT1 := HT x1 ltac:(rewrite Er; apply in_or_app; auto)).
           assert (B0 : 0 <= p0) by (destruct HT0 as [_ [? _]]; lra).
           assert (B1 : p1 <= 2 * PI) by (destruct HT1 as [_ [_ [? _]]]; lra).
           set (e2 := if Rltb (vd_off x) p0 then vd_off x else p0) in Ee.
           set (e3 := if Rltb p1 (vd_phi x (va_nPads (snd x))) then vd_phi x (va_nPads (snd x)) else p1) in Ee.
           assert (He : 0 <= e2 /\ e3 <= 2 * PI) by (unfold e2, e3; split; rcase; lra).
           destruct (Rltb_spec (2 * PI) (e3 - e2)); [lra|]. injection Ee as E2 E3.
           exists e2, e3. rewrite E2, E3. split; [reflexivity|]. rewrite Er. split; [|split].
           ++ intros z Hz. apply in_app_or in Hz. destruct Hz as [Hz|[<-|[]]].
              ** destruct (Hall z Hz). unfold e2, e3. split; rcase; lra.
              ** unfold e2, e3. split; rcase; lra.
           ++ unfold e2. destruct (Rltb_spec (vd_off x) p0); [exists x|exists x0]; split; auto; apply in_or_app; [right; left; auto|auto].
           ++ unfold e3. destruct (Rltb_spec p1 (vd_phi x (va_nPads (snd x)))); [exists x|exists x1]; split; auto; apply in_or_app; [right; left; auto|auto].
      * destruct (story_fun _ _ _ _ _ _ HS (vs_refused _ _ _ _ _ HS1 HB)) as [-> ->].
        destruct (vd_add_bad rMin rows1 top1 l1 a ltac:(lra) HR1 HB) as [n [e [E _]]]. rewrite E in HM'. injection HM' as <-.
        apply (IH HT Hne).
    + destruct (story_fun _ _ _ _ _ _ HS (vs_asked _ _ _ _ r HS1)) as [-> ->].
      destruct (vd_pads_rep rMin rows1 top1 l1 HR1) with (r := r) as [c [E _]].
      { intros x Hx. destruct (Hg1 x Hx) as [_ HG]. apply HG. }
      rewrite E in HM'. injection HM' as <-. apply (IH HT Hne).
Qed.

(** then every point of every pad is inside some pad *)
Lemma vd_inside_any_complete : forall rMin h, 0 <= rMin -> (forall a, In (VAdd a) h -> va_repeat a = 1%Z) ->
  forall l rows top, vd_made rMin h l -> vd_story rMin h rows top -> (forall x, In x rows -> vd_in_turn x) ->
  forall k x j r phi, vd_pad rows k x j -> (k < 65535)%Z -> fst x < r <= fst x + va_height (snd x) ->
  vd_phi x j <= phi < vd_phi x (j + 1) -> vd_isInsideAnyPad l r phi = Ok true.
Proof.
  intros rMin h H0 Hrep l rows top HM HS HT k x j r phi HP Hk Hr Hphi.
  assert (HP' := HP). destruct HP' as [Hx [Hj [Hn _]]].
  assert (Hin : In x rows) by (unfold nthZ in Hx; destruct (k <? 0)%Z; [discriminate|]; eapply nth_error_In; eauto).
  destruct (vd_extent_exact rMin h H0 Hrep l rows top HM HS HT) as [p0 [p1 [He [Hall _]]]]; [intros ->; destruct Hin|].
  destruct (Hall x Hin) as [A0 A1]. destruct (vd_edges _ _ _ _ _ _ _ H0 HS HP) as [Ep [Q1 Q2]].
  destruct (HT x Hin) as [Hp [Ho [Hm _]]].
  assert (A2 : IZR j + 1 <= IZR (va_nPads (snd x))) by (rewrite <- (plus_IZR j 1); apply IZR_le; lia).
  assert (Hlast : vd_phi x (j + 1) <= vd_phi x (va_nPads (snd x))) by (unfold vd_phi; rewrite plus_IZR; nra).
  destruct (story_row _ _ _ _ k x H0 HS Hx) as [Hx0 _].
  destruct (story_facts _ _ _ _ H0 HS) as [_ [Hst Hg]].
  assert (Htop : fst x + va_height (snd x) <= top).
  { destruct (nthZ_split _ _ _ _ Hx) as [pre [post [Erows _]]].
    assert (Hh : forall y, In y rows -> 0 < va_height (snd y)) by (intros y Hy; destruct (Hg y Hy) as [_ HG]; apply HG).
    clear - Hst Erows Hh. subst rows. revert rMin Hst. induction pre as [|y t IH]; intros lo Hst; cbn in Hst; destruct Hst as [E Hst].
    - rewrite E. apply (stacked_heights _ _ _ Hst). intros; apply Hh; right; auto.
    - eapply IH; eauto. intros; apply Hh; right; auto. }
  unfold vd_getPlaneExtent in He. injection He as E0 E1 E2 E3. unfold vd_isInsideAnyPad. rewrite E0, E1, E2, E3.
  destruct (Rltb_spec r rMin); [lra|]. destruct (Rltb_spec top r); [lra|]. destruct (Rltb_spec phi p0); [lra|]. destruct (Rltb_spec p1 phi); [lra|]. cbn [orb].
  destruct (vd_nearest_cell rMin h l rows top H0 HM HS HT k x r phi phi Hx Hk ltac:(lra) ltac:(right; lra) (or_introl eq_refl) ltac:(lra)) as [j' [E [HPj B]]].
  rewrite E. cbn [rbind]. pose proof PI2_pos. destruct (vd_edges _ _ _ _ _ _ _ H0 HS HPj) as [_ [Q3 Q4]].
  destruct (vd_inside_exact _ _ _ _ _ H0 HM HS k x j' HPj r phi ltac:(lra)) as [b [Eb Hb]]. rewrite Eb. f_equal. apply Hb.
  split; [lra|]. exists phi. split; [exists 0%Z; simpl; lra|lra].
Qed.

(** ** with repeated rows a pad's own centre can be outside every pad *)
Definition vd_rep2 : vd_args := mkVdArgs 3 1 2 0 0 0 2.
Lemma vd_rep2_good : vd_good 1 vd_rep2.
Proof. unfold vd_good, vd_rep2; cbn. pose proof PI_big. split; [lia|]. split; [lra|]. split; [lra|]. split; [lra|]. split; [lia|lra]. Qed.
Lemma vd_centre_outside_any : exists l rows top x, vd_made 1 [VAdd vd_rep2] l /\ vd_story 1 [VAdd vd_rep2] rows top /\
  vd_pad rows 0 x 2 /\ (forall y, In y rows -> vd_in_turn y) /\
  exists c, vd_getPadCenter l (code 0 2) = Ok c /\ vd_isInsidePad l (fst c) (snd c) (code 0 2) = Ok true /\
    vd_isInsideAnyPad l (fst c) (snd c) = Ok false.
Proof.
  assert (H1 : 0 <= 1) by lra. pose proof vd_rep2_good as HG. destruct (vd_one 1 vd_rep2 H1 HG) as [l [HM [HS [Erows Ee]]]].
  pose proof PI_big as PB.
  set (rows := more_rows 1 vd_rep2 (Z.to_nat (va_repeat vd_rep2))) in *.
  assert (Er : rows = [(1, vd_rep2); (3, vd_rep2)]).
  { unfold rows. cbn [va_repeat vd_rep2]. change (Z.to_nat 2) with 2%nat. rewrite more_rows_S, more_rows_S.
    change (more_rows (1 + va_height vd_rep2 + va_height vd_rep2) vd_rep2 0) with (@nil (R * vd_args)). repeat f_equal. }
  assert (HP : vd_pad rows 0 (1, vd_rep2) 2) by (rewrite Er; repeat split; cbn; lia).
  assert (O : forall q, 0 <= q -> vd_off (q, vd_rep2) = 0).
  { intros q Hq. unfold vd_off, vd_rc, vd_rep2. cbn [snd fst va_offset va_height]. assert (Z0 : 0 / (q + 2 / 2) = 0) by (unfold Rdiv at 1; apply Rmult_0_l). cbv zeta. rewrite Z0.
    destruct (Rltb_spec 0 (- 2 * PI)); [lra|]. destruct (Rleb_spec (2 * PI) 0); [lra|reflexivity]. }
  assert (P : forall q, vd_pitch (q, vd_rep2) = 1 / (q + 1)) by (intros; unfold vd_pitch, vd_rc, vd_rep2; cbn; f_equal; lra).
  exists l, rows, (1 + IZR (va_repeat vd_rep2) * va_height vd_rep2), (1, vd_rep2).
  do 3 (split; [auto|]). split.
  { rewrite Er. intros y [<-|[<-|[]]]; unfold vd_in_turn, vd_phi; rewrite O, P by lra; cbn [snd va_nPads vd_rep2]; (split; [lra|]); (split; [lra|]); (split; [lra|lia]). }
  destruct (vd_geometry _ _ _ _ _ H1 HM HS _ _ _ HP) as [Ec _].
  destruct (vd_centre_inside _ _ _ _ _ H1 HM HS _ _ _ HP) as [c [Ec' [Ei _]]].
  exists c. split; [exact Ec'|]. split; [exact Ei|]. assert (c = (vd_rc (1, vd_rep2), (vd_phi (1, vd_rep2) 2 + vd_phi (1, vd_rep2) (2 + 1)) / 2)) by congruence. subst c.
  destruct (vd_extent_repeat 1 vd_rep2 l H1 HG ltac:(cbn; lia) ltac:(cbn; lra) eq_refl HM) as [p1 [Hx _]].
  cbn [fst snd]. unfold vd_isInsideAnyPad.
  assert (E3 : v_e3 l = 3 / 4).
  { assert (Elr : last_row 1 vd_rep2 (Z.to_nat (va_repeat vd_rep2)) = (3, vd_rep2)) by (unfold last_row; cbn [va_repeat vd_rep2 va_height]; change (IZR (Z.of_nat (Z.to_nat 2 - 1))) with 1; apply f_equal2; [lra|reflexivity]). rewrite Elr in Ee.
    unfold vd_extent in Ee. cbv zeta in Ee. cbn [v_rows v_e2 v_e3] in Ee. rewrite Erows, Er in Ee. cbn [rows_from List.length Nat.eqb orb] in Ee.
    match type of Ee with context[the_row ?kk (3, vd_rep2)] => change (v_offset (the_row kk (3, vd_rep2))) with (vd_off (3, vd_rep2)) in Ee;
          change (v_phiMax (the_row kk (3, vd_rep2))) with (vd_off (3, vd_rep2) + vd_pitch (3, vd_rep2) * 3) in Ee end.
    rewrite O, P in Ee by lra.
    destruct (Rltb_spec 0 0); [lra|]. destruct (Rltb_spec 0 (0 + 1 / (3 + 1) * 3)); [|lra].
    destruct (Rltb_spec (2 * PI) (0 + 1 / (3 + 1) * 3 - 0)); [lra|]. injection Ee as _ E3. lra. }
  assert (Hphi : v_e3 l < (vd_phi (1, vd_rep2) 2 + vd_phi (1, vd_rep2) (2 + 1)) / 2).
  { rewrite E3. unfold vd_phi. rewrite O, P by lra. simpl. lra. }
  destruct (Rltb_spec (v_e3 l) ((vd_phi (1, vd_rep2) 2 + vd_phi (1, vd_rep2) (2 + 1)) / 2)); [|lra].
  rewrite !orb_true_r. reflexivity.
Qed.

(** ** a point in no pad can be reported inside *)
Definition vd_g1 : vd_args := mkVdArgs 1 2 2 0 0 0 1.
Definition vd_g2 : vd_args := mkVdArgs 1 4 2 4 0 0 1.
Lemma vd_gap_inside : exists l rows top, vd_made 1 [VAdd vd_g1; VAdd vd_g2] l /\ vd_story 1 [VAdd vd_g1; VAdd vd_g2] rows top /\
  (forall y, In y rows -> vd_in_turn y) /\ exists r phi, 0 <= phi < 2 * PI /\
  vd_isInsideAnyPad l r phi = Ok true /\
  (forall k x j, vd_pad rows k x j -> vd_isInsidePad l r phi (code k j) = Ok false).
Proof.
  assert (H1 : 0 <= 1) by lra. pose proof PI_big as PB. pose proof PI_4 as P4.
  assert (G1 : vd_good 1 vd_g1) by (unfold vd_good, vd_g1; cbn; split; [lia|]; split; [lra|]; split; [lra|]; split; [lra|]; split; [lia|lra]).
  assert (G2 : vd_good (1 + IZR 1 * 2) vd_g2) by (unfold vd_good, vd_g2; cbn; split; [lia|]; split; [lra|]; split; [lra|]; split; [lra|]; split; [lia|lra]).
  set (h := [VAdd vd_g1; VAdd vd_g2]).
  pose proof (vs_add 1 [VAdd vd_g1] _ _ vd_g2 (vs_add 1 [] [] 1 vd_g1 (vs_new 1) G1) G2) as HS.
  change ([VAdd vd_g1] ++ [VAdd vd_g2]) with h in HS. cbn [app va_repeat vd_g1 vd_g2 va_height] in HS.
  change (Z.to_nat 1) with 1%nat in HS. cbn [RectSpec.upto seq map Z.of_nat app] in HS.
  destruct (vd_total 1 h H1) as [l [rows [top [HM [HS' HR]]]]]. destruct (story_fun _ _ _ _ _ _ HS' HS) as [Er Et]. 
  assert (Er' : rows = [(1, vd_g1); (3, vd_g2)]).
  { rewrite Er. unfold RectSpec.upto. cbn [seq map Z.of_nat app]. repeat f_equal; unfold vd_g1, vd_g2; cbn; lra. }
  assert (Et' : top = 5) by lra. clear Er Et HS. subst rows top.
  assert (O1 : vd_off (1, vd_g1) = 0).
  { unfold vd_off, vd_rc, vd_g1; cbn. replace (0 / (1 + 2 / 2)) with 0 by lra. destruct (Rltb_spec 0 (- 2 * PI)); [lra|]. destruct (Rleb_spec (2 * PI) 0); lra. }
  assert (O2 : vd_off (3, vd_g2) = 1).
  { unfold vd_off, vd_rc, vd_g2; cbn. replace (4 / (3 + 2 / 2)) with 1 by lra. destruct (Rltb_spec 1 (- 2 * PI)); [lra|]. destruct (Rleb_spec (2 * PI) 1); lra. }
  assert (Q1 : vd_pitch (1, vd_g1) = 1) by (unfold vd_pitch, vd_rc, vd_g1; cbn; lra).
  assert (Q2 : vd_pitch (3, vd_g2) = 1) by (unfold vd_pitch, vd_rc, vd_g2; cbn; lra).
  assert (F1 : forall j, vd_phi (1, vd_g1) j = IZR j) by (intros; unfold vd_phi; rewrite O1, Q1; lra).
  assert (F2 : forall j, vd_phi (3, vd_g2) j = 1 + IZR j) by (intros; unfold vd_phi; rewrite O2, Q2; lra).
  assert (HT : forall y, In y [(1, vd_g1); (3, vd_g2)] -> vd_in_turn y).
  { intros y [<-|[<-|[]]]; unfold vd_in_turn; rewrite ?O1, ?O2, ?Q1, ?Q2, ?F1, ?F2; cbn [snd va_nPads vd_g1 vd_g2]; (split; [lra|]); (split; [lra|]); (split; [lra|lia]). }
  exists l, [(1, vd_g1); (3, vd_g2)], 5. do 2 (split; [auto|]). split; [exact HT|].
  exists 5, (9 / 10). split; [lra|]. split.
  - destruct (vd_extent_exact 1 h H1) with (l := l) (rows := [(1, vd_g1); (3, vd_g2)]) (top := 5) as [p0 [p1 [He [Hall _]]]]; auto.
    { intros a [E|[E|[]]]; injection E as <-; reflexivity. }
    { discriminate. }
    destruct (Hall (1, vd_g1) (or_introl eq_refl)) as [A0 A1]. destruct (Hall (3, vd_g2) (or_intror (or_introl eq_refl))) as [A2 A3].
    rewrite O1 in A0. rewrite F2 in A3. cbn [snd va_nPads vd_g2] in A3.
    unfold vd_getPlaneExtent in He. injection He as E0 E1 E2 E3. unfold vd_isInsideAnyPad. rewrite E0, E1, E2, E3.
    destruct (Rltb_spec 5 1); [lra|]. destruct (Rltb_spec 5 5); [lra|]. destruct (Rltb_spec (9 / 10) p0); [lra|]. destruct (Rltb_spec p1 (9 / 10)); [lra|]. cbn [orb].
    unfold vd_getNearestPad. rewrite (vr_rows _ _ _ _ HR). cbn [rows_from vd_scan].
    destruct (vnearest_ok (Z.of_nat 0) (1, vd_g1) 5 (9 / 10) (HT _ (or_introl eq_refl))) as [pp Epp]. rewrite Epp. cbn [rbind].
    assert (D1 : vrow_distance (the_row (Z.of_nat 0) (1, vd_g1)) 5 (9 / 10) = 2).
    { unfold vrow_distance. cbv zeta. fold (vturn (9 / 10)). rewrite vturn_id by lra. rewrite row_lo, row_hi, row_pm.
      change (v_offset (the_row (Z.of_nat 0) (1, vd_g1))) with (vd_off (1, vd_g1)). rewrite O1, F1. cbn [snd fst va_nPads va_height vd_g1].
      destruct (Rleb_spec 0 (9 / 10)); [|lra]. destruct (Rleb_spec (9 / 10) 1); [|lra]. cbn [andb].
      destruct (Rleb_spec 1 5); [|lra]. destruct (Rleb_spec 5 (1 + 2)); [lra|]. cbn [andb]. destruct (Rltb_spec 5 1); lra. }
    assert (D2 : vrow_distance (the_row (Z.of_nat 1) (3, vd_g2)) 5 (9 / 10) < 2).
    { unfold vrow_distance. cbv zeta. fold (vturn (9 / 10)). rewrite vturn_id by lra. rewrite row_lo, row_hi, row_pm.
      change (v_offset (the_row (Z.of_nat 1) (3, vd_g2))) with (vd_off (3, vd_g2)). rewrite O2, F2. cbn [snd fst va_nPads va_height vd_g2].
      destruct (Rleb_spec 1 (9 / 10)); [lra|]. cbn [andb].
      assert (C : corner_distance (the_row (Z.of_nat 1) (3, vd_g2)) 5 (9 / 10) 1 < 2).
      { unfold corner_distance. cbv zeta. fold (vturn (9 / 10)). rewrite vturn_id by lra. rewrite row_lo, row_hi. cbn [fst snd va_height vd_g2].
        replace (1 - 9 / 10) with (1 / 10) by lra.
        assert (Hc : 1 - 1 / 200 <= cos (1 / 10)).
        { pose proof (cos_bound (1 / 10) 0 ltac:(lra) ltac:(lra)) as [B _].
          unfold cos_approx, cos_term in B. simpl in B. lra. }
        apply Rlt_le_trans with (sqrt 4); [|replace 4 with (2 * 2) by lra; rewrite sqrt_square; lra].
        apply sqrt_lt_1_alt. pose proof (COS_bound (1 / 10)).
        match goal with |- context[Rltb ?u ?v] => destruct (Rltb_spec u v) end; lra. }
      match goal with |- context[Rltb ?u ?v] => destruct (Rltb_spec u v) end; lra. }
    rewrite D1. destruct (Rltb_spec (vrow_distance (the_row (Z.of_nat 1) (3, vd_g2)) 5 (9 / 10)) 2); [|lra].
    assert (En : vrow_getNearestPad (the_row (Z.of_nat 1) (3, vd_g2)) 5 (9 / 10) = Ok (disk_pack 1 (-1))).
    { unfold vrow_getNearestPad. cbv zeta. fold (vturn (9 / 10)). rewrite vturn_id by lra. rewrite row_pm, F2. cbn [snd va_nPads vd_g2].
      destruct (Rltb_spec (9 / 10) (1 + 1)); [|lra]. change (v_offset (the_row (Z.of_nat 1) (3, vd_g2))) with (vd_off (3, vd_g2)).
      change (v_padPitch (the_row (Z.of_nat 1) (3, vd_g2))) with (vd_pitch (3, vd_g2)). rewrite O2, Q2.
      rewrite (floor_div_val _ _ (-1)); [reflexivity|lra|unfold int_ok; lia|simpl; lra]. }
    rewrite En. cbn [rbind]. change (disk_pack 1 (-1)) with (code 1 65535). change (code 1 65535 =? -1)%Z with false. cbv iota. cbn [rbind].
    unfold vd_isInsidePad, vd_row_of, vd_getRowNumber. rewrite code_row, code_pad by lia. rewrite (vr_rows _ _ _ _ HR).
    cbn [rows_from List.length]. change ((1 <? 0)%Z || (Z.of_nat 2 - 1 <? 1)%Z)%bool with false. cbv iota. cbn [rbind].
    change (sub [the_row (Z.of_nat 0) (1, vd_g1); the_row (Z.of_nat 1) (3, vd_g2)] 1) with (Ok (the_row (Z.of_nat 1) (3, vd_g2))). cbn [rmap]. f_equal. cbv zeta.
    rewrite row_lo, row_hi. change (v_offset (the_row (Z.of_nat 1) (3, vd_g2))) with (vd_off (3, vd_g2)).
    change (v_padPitch (the_row (Z.of_nat 1) (3, vd_g2))) with (vd_pitch (3, vd_g2)). rewrite O2, Q2. cbn [fst snd va_height vd_g2].
    destruct (Rltb_spec (9 / 10) (1 + 1 * 65535)); [|lra]. destruct (Rleb_spec (1 + 1 * 65535 + 2 * PI) (9 / 10 + 2 * PI)); [lra|].
    rewrite !andb_true_iff, !Rleb_true. lra.
  - intros k x j HP. assert (HP' := HP). destruct HP' as [Hk [Hj _]].
    destruct (nthZ_some _ _ _ _ Hk) as [K0 K1]. cbn in K1.
    assert (Hb : exists b, vd_isInsidePad l 5 (9 / 10) (code k j) = Ok b /\ (b = true -> False)).
    { assert (Hkk : k = 0%Z \/ k = 1%Z) by lia. destruct Hkk as [->| ->]; unfold nthZ in Hk; cbn in Hk; injection Hk as <-; cbn [snd va_nPads vd_g1 vd_g2] in Hj; assert (j = 0%Z) by lia; subst j.
      - destruct (vd_inside_exact _ _ _ _ _ H1 HM HS' 0 (1, vd_g1) 0 HP 5 (9 / 10)) as [b [Eb Hb]]; [rewrite F1; simpl; lra|].
        exists b. split; auto. intros ->. cbn [fst snd va_height vd_g1] in Hb. destruct Hb as [Hb _]. specialize (Hb eq_refl). lra.
      - destruct (vd_inside_exact _ _ _ _ _ H1 HM HS' 1 (3, vd_g2) 0 HP 5 (9 / 10)) as [b [Eb Hb]]; [rewrite F2; simpl; lra|].
        exists b. split; auto. intros ->. destruct Hb as [Hb _]. specialize (Hb eq_refl). destruct Hb as [_ [phi' [[q Eq] Hq]]]. rewrite !F2 in Hq. simpl in Hq.
        assert (Hq0 : (q < 0)%Z). { apply lt_IZR. simpl. apply Rmult_lt_reg_l with (2 * PI); lra. }
        assert (IZR q <= -1) by (apply (IZR_le q (-1)); lia). nra. }
    destruct Hb as [b [Eb Hb]]. rewrite Eb. destruct b; [exfalso; auto|reflexivity].
Qed.
