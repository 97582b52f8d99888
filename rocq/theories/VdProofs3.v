(** Proofs about VersatileDiskRowLayout: nearest pad, phi extent, defects. *)
From Coq Require Import ZArith List String Bool Reals Lra Lia.
From Flocq Require Import Core.Raux.
From Verif Require Import Base RBase BitProofs DiskBase VdModel DiskSpec DiskProofs FpsProofs FpaProofs VdProofs VdProofs2.
From Verif Require RectSpec RectProofs5.
Import ListNotations.
Open Scope R_scope.

Definition vturn (phi : R) : R := wrap_down (2 * PI) (wrap_up 0 phi).
Lemma vturn_id : forall phi, 0 <= phi <= 2 * PI -> vturn phi = phi.
Proof. intros. unfold vturn. now apply wrap_id. Qed.
Lemma vturn_window : forall phi, 0 <= vturn phi <= 2 * PI.
Proof. intros. unfold vturn. apply wrap_window. lra. Qed.
Lemma vturn_same : forall phi phi', same_angle phi phi' -> 0 < phi' < 2 * PI -> vturn phi = phi'.
Proof.
  intros phi phi' [k E] H. apply (same_window 0); [|pose proof (vturn_window phi); lra|lra].
  destruct (wrap_same 0 (2 * PI) phi) as [k' E']. exists (k + k')%Z. unfold vturn. rewrite E', E, plus_IZR. lra.
Qed.

Lemma corner_nonneg : forall row r phi e, 0 <= corner_distance row r phi e.
Proof. intros. unfold corner_distance. cbv zeta. apply sqrt_pos. Qed.
Lemma corner_pos : forall row r phi e, 0 <= v_rCentre row - v_rowHeight row * (1 / 2) -> 0 < v_rowHeight row ->
  v_rCentre row + v_rowHeight row * (1 / 2) < r -> 0 < corner_distance row r phi e.
Proof.
  intros row r phi e Hlo Hh Hr. unfold corner_distance. cbv zeta. apply sqrt_lt_R0.
  match goal with |- context[cos ?t] => pose proof (COS_bound t) as B; set (c := cos t) in * end.
  set (lo := v_rCentre row - v_rowHeight row * (1 / 2)) in *. set (hi := v_rCentre row + v_rowHeight row * (1 / 2)) in *.
  assert (lo < hi) by (unfold lo, hi; lra).
  assert (P : forall q, 0 <= q < r -> 0 < q * q + r * r - 2 * q * r * c).
  { intros q Hq. assert (0 <= q * r) by nra. assert (0 < (r - q) * (r - q)) by (apply Rmult_lt_0_compat; lra). nra. }
  match goal with |- context[Rltb ?a ?b] => destruct (Rltb_spec a b) end; apply P; lra.
Qed.
Lemma vdist_nonneg : forall row r phi, 0 <= vrow_distance row r phi.
Proof.
  intros. unfold vrow_distance. cbv zeta. pose proof (corner_nonneg row r (wrap_down (2 * PI) (wrap_up 0 phi))) as C.
  repeat rcase; cbn [andb]; try apply C; lra.
Qed.
Lemma vdist_pos : forall row r phi, 0 <= v_rCentre row - v_rowHeight row * (1 / 2) -> 0 < v_rowHeight row ->
  v_rCentre row + v_rowHeight row * (1 / 2) < r -> 0 < vrow_distance row r phi.
Proof.
  intros row r phi Hlo Hh Hr. unfold vrow_distance. cbv zeta.
  pose proof (fun e => corner_pos row r (wrap_down (2 * PI) (wrap_up 0 phi)) e Hlo Hh Hr) as C.
  repeat rcase; cbn [andb]; try apply C; lra.
Qed.
Lemma row_lo : forall k x, v_rCentre (the_row k x) - v_rowHeight (the_row k x) * (1 / 2) = fst x.
Proof. intros. cbn. unfold vd_rc. lra. Qed.
Lemma row_hi : forall k x, v_rCentre (the_row k x) + v_rowHeight (the_row k x) * (1 / 2) = fst x + va_height (snd x).
Proof. intros. cbn. unfold vd_rc. lra. Qed.
Lemma row_pm : forall k x, row_phi_max (the_row k x) = vd_phi x (va_nPads (snd x)).
Proof. intros. unfold row_phi_max, vd_phi. reflexivity. Qed.
Lemma vdist_zero : forall k x r phi, fst x <= r <= fst x + va_height (snd x) ->
  vd_off x <= vturn phi <= vd_phi x (va_nPads (snd x)) -> vrow_distance (the_row k x) r phi = 0.
Proof.
  intros k x r phi Hr Hphi. unfold vrow_distance. cbv zeta. fold (vturn phi). rewrite row_lo, row_hi, row_pm.
  change (v_offset (the_row k x)) with (vd_off x).
  destruct (Rleb_spec (vd_off x) (vturn phi)); [|lra]. destruct (Rleb_spec (vturn phi) (vd_phi x (va_nPads (snd x)))); [|lra]. cbn [andb].
  destruct (Rleb_spec (fst x) r); [|lra]. destruct (Rleb_spec r (fst x + va_height (snd x))); [|lra]. reflexivity.
Qed.

Lemma vnearest_ok : forall k x r phi, vd_in_turn x -> exists p, vrow_getNearestPad (the_row k x) r phi = Ok p.
Proof.
  intros k x r phi [Hp [Ho [Hm Hn]]]. unfold vrow_getNearestPad. cbv zeta. fold (vturn phi). rewrite row_pm.
  destruct (Rltb_spec (vturn phi) (vd_phi x (va_nPads (snd x)))) as [C|C]; [|destruct (Rltb _ _); eauto].
  cbn [v_offset v_padPitch the_row]. pose proof (vturn_window phi) as W.
  set (q := (vturn phi - vd_off x) / vd_pitch x). assert (Eq : q * vd_pitch x = vturn phi - vd_off x) by (unfold q; field; lra).
  pose proof (Zfloor_lb q) as L. pose proof (Zfloor_ub q) as U.
  assert (Hq : q < IZR (va_nPads (snd x))). { apply Rmult_lt_reg_r with (vd_pitch x); auto. rewrite Eq. unfold vd_phi in C. lra. }
  assert (Hq' : - 2147483648 <= q). { apply Rmult_le_reg_r with (vd_pitch x); auto. rewrite Eq. lra. }
  rewrite (floor_div_val _ _ (Zfloor q)); [cbn [rmap]; eauto|lra| |fold q; lra].
  unfold int_ok. split.
  - apply (Zfloor_lub (-2147483648)). simpl. lra.
  - assert (Zfloor q < va_nPads (snd x))%Z by (apply lt_IZR; lra). lia.
Qed.
Lemma vnearest_cell : forall k x r phi, vd_in_turn x -> (0 <= k < 65536)%Z ->
  vd_off x <= vturn phi < vd_phi x (va_nPads (snd x)) ->
  exists j, vrow_getNearestPad (the_row k x) r phi = Ok (code k j) /\ (0 <= j < va_nPads (snd x))%Z /\
    vd_phi x j <= vturn phi < vd_phi x (j + 1).
Proof.
  intros k x r phi [Hp [Ho [Hm Hn]]] Hk Hphi. unfold vrow_getNearestPad. cbv zeta. fold (vturn phi). rewrite row_pm.
  destruct (Rltb_spec (vturn phi) (vd_phi x (va_nPads (snd x)))) as [C|C]; [|lra].
  cbn [v_offset v_padPitch the_row v_rowNumber].
  set (q := (vturn phi - vd_off x) / vd_pitch x). assert (Eq : q * vd_pitch x = vturn phi - vd_off x) by (unfold q; field; lra).
  assert (Hq : q < IZR (va_nPads (snd x))). { apply Rmult_lt_reg_r with (vd_pitch x); auto. rewrite Eq. unfold vd_phi in C. lra. }
  assert (Hq' : 0 <= q). { apply Rmult_le_reg_r with (vd_pitch x); auto. rewrite Eq. lra. }
  assert (Hpos : (0 < va_nPads (snd x))%Z) by (apply lt_IZR; simpl; lra).
  destruct (floor_cell q (va_nPads (snd x)) Hpos (conj Hq' Hq)) as [j [Hj B]].
  rewrite (floor_div_val _ _ j); [|lra|unfold int_ok; lia|fold q; lra]. cbn [rmap]. exists j.
  split; [now rewrite pack_code by lia|]. split; auto. unfold vd_phi. rewrite plus_IZR.
  assert (IZR j * vd_pitch x <= q * vd_pitch x) by (apply Rmult_le_compat_r; lra).
  assert (q * vd_pitch x < (IZR j + 1) * vd_pitch x) by (apply Rmult_lt_compat_r; lra). lra.
Qed.

(** ** the scan over the rows *)
Lemma scan_pre : forall pre rest k r phi best,
  (forall x, In x pre -> vd_in_turn x /\ 0 <= fst x /\ 0 < va_height (snd x) /\ fst x + va_height (snd x) < r) ->
  (forall p d, best = Some (p, d) -> 0 < d) ->
  exists best', vd_scan (rows_from k pre ++ rest) r phi best = vd_scan rest r phi best' /\ (forall p d, best' = Some (p, d) -> 0 < d).
Proof.
  induction pre as [|x t IH]; intros rest k r phi best H Hb; cbn [rows_from app vd_scan].
  - exists best. auto.
  - destruct (H x (or_introl eq_refl)) as [Hx [H0 [Hh Hr]]].
    destruct (vnearest_ok (Z.of_nat k) x r phi Hx) as [p Ep].
    assert (Hd : 0 < vrow_distance (the_row (Z.of_nat k) x) r phi) by (apply vdist_pos; rewrite ?row_lo, ?row_hi; auto).
    assert (Ht : forall y, In y t -> vd_in_turn y /\ 0 <= fst y /\ 0 < va_height (snd y) /\ fst y + va_height (snd y) < r) by (intros; apply H; right; auto).
    destruct (match best with None => true | Some (_, d0) => Rltb (vrow_distance (the_row (Z.of_nat k) x) r phi) d0 end).
    + rewrite Ep. cbn [rbind]. apply IH; auto. intros p' d' E. injection E as <- <-. auto.
    + apply IH; auto.
Qed.
Lemma scan_post : forall rows k r phi p, vd_scan (rows_from k rows) r phi (Some (p, 0)) = Ok (Some (p, 0)).
Proof.
  induction rows as [|x t IH]; intros k r phi p; cbn [rows_from vd_scan]; auto.
  pose proof (vdist_nonneg (the_row (Z.of_nat k) x) r phi).
  destruct (Rltb_spec (vrow_distance (the_row (Z.of_nat k) x) r phi) 0); [lra|]. apply IH.
Qed.

Lemma stacked_heights : forall rows lo hi, stacked lo rows hi -> (forall x, In x rows -> 0 < va_height (snd x)) ->
  (forall x, In x rows -> lo <= fst x) /\ lo <= hi.
Proof.
  induction rows as [|x t IH]; intros lo hi HS Hh; cbn in HS.
  - split; [intros x []|lra].
  - destruct HS as [E HS]. destruct (IH _ _ HS) as [I1 I2]; [intros; apply Hh; right; auto|].
    pose proof (Hh x (or_introl eq_refl)). split; [|lra]. intros y [<-|Hy]; [lra|]. specialize (I1 y Hy). lra.
Qed.
Lemma stacked_before : forall pre x post lo hi, stacked lo (pre ++ x :: post) hi ->
  (forall y, In y (pre ++ x :: post) -> 0 < va_height (snd y)) -> forall y, In y pre -> fst y + va_height (snd y) <= fst x.
Proof.
  induction pre as [|z t IH]; intros x post lo hi HS Hh y Hy; [destruct Hy|]. cbn in HS. destruct HS as [E HS].
  destruct Hy as [->|Hy].
  - destruct (stacked_heights _ _ _ HS) as [I _]; [intros; apply Hh; right; auto|]. specialize (I x). rewrite E. apply I. apply in_or_app. right. left. auto.
  - eapply IH; eauto. intros; apply Hh; right; auto.
Qed.
Lemma nthZ_split : forall A (l : list A) k x, nthZ l k = Some x -> exists pre post, l = pre ++ x :: post /\ Z.of_nat (List.length pre) = k.
Proof.
  intros A l k x H. unfold nthZ in H. destruct (Z.ltb_spec k 0); [discriminate|]. apply nth_error_split in H.
  destruct H as [pre [post [E L]]]. exists pre, post. split; auto. lia.
Qed.

Lemma vd_nearest_cell : forall rMin h l rows top, 0 <= rMin -> vd_made rMin h l -> vd_story rMin h rows top ->
  (forall x, In x rows -> vd_in_turn x) ->
  forall k x r phi phi', nthZ rows k = Some x -> (k < 65535)%Z ->
  fst x <= r <= fst x + va_height (snd x) -> (k = 0%Z \/ fst x < r) ->
  (phi = phi' \/ same_angle phi phi' /\ 0 < phi' < 2 * PI) -> vd_off x <= phi' < vd_phi x (va_nPads (snd x)) ->
  exists j, vd_getNearestPad l r phi = Ok (code k j) /\ vd_pad rows k x j /\ vd_phi x j <= phi' < vd_phi x (j + 1).
Proof.
  intros rMin h l rows top H0 HM HS HT k x r phi phi' Hk Hk2 Hr Hr' Hphi Hrow. pose proof (vd_rep _ _ _ _ _ H0 HM HS) as HR.
  destruct (story_facts _ _ _ _ H0 HS) as [_ [Hst Hg]]. pose proof (nthZ_some _ _ _ _ Hk) as Hkr.
  destruct (nthZ_split _ _ _ _ Hk) as [pre [post [Erows Hlen]]].
  assert (Hin : In x rows) by (rewrite Erows; apply in_or_app; right; left; auto).
  assert (HTx := HT x Hin). assert (HTx' := HTx). destruct HTx' as [Hp [Ho [Hm Hn]]].
  assert (Ht : vturn phi = phi') by (destruct Hphi as [->|[HA HB]]; [apply vturn_id; lra|now apply vturn_same]).
  destruct (vnearest_cell k x r phi HTx ltac:(lia)) as [j [Ej [Hj Bj]]]; [rewrite Ht; auto|].
  rewrite Ht in Bj. exists j. split; [|split; [repeat (split; auto); lia|auto]].
  unfold vd_getNearestPad. rewrite (vr_rows _ _ _ _ HR), Erows, rows_from_app. cbn [rows_from Nat.add].
  assert (Hheights : forall y, In y rows -> 0 < va_height (snd y)) by (intros y Hy; destruct (Hg y Hy) as [_ HG]; apply HG).
  destruct (scan_pre pre (the_row (Z.of_nat (List.length pre)) x :: rows_from (S (List.length pre)) post) 0 r phi None) as [best [E Hb]].
  { intros y Hy. assert (Hy' : In y rows) by (rewrite Erows; apply in_or_app; auto).
    split; [auto|]. destruct (Hg y Hy') as [Hy1 _]. split; [lra|]. split; [auto|].
    rewrite Erows in Hst, Hheights. pose proof (stacked_before pre x post rMin top Hst Hheights y Hy).
    destruct Hr' as [Hz|Hz]; [|lra]. destruct pre; [destruct Hy|cbn in Hlen; lia]. }
  { discriminate. }
  rewrite E. cbn [vd_scan]. rewrite Hlen. rewrite vdist_zero by (rewrite ?Ht; lra).
  assert (Etake : match best with None => true | Some (_, d0) => Rltb 0 d0 end = true).
  { destruct best as [[p d]|]; auto. specialize (Hb p d eq_refl). now apply Rltb_true. }
  rewrite Etake, Ej. cbn [rbind]. rewrite scan_post. cbn [rbind].
  destruct (Z.eqb_spec (code k j) (-1)) as [Em|]; [|reflexivity]. exfalso.
  change (-1)%Z with (code 65535 65535) in Em. apply RectProofs5.code_inj in Em; lia.
Qed.
Lemma vd_nearest_centre : forall rMin h l rows top, 0 <= rMin -> vd_made rMin h l -> vd_story rMin h rows top ->
  (forall x, In x rows -> vd_in_turn x) -> forall k x j, vd_pad rows k x j -> (k < 65535)%Z ->
  exists c, vd_getPadCenter l (code k j) = Ok c /\ vd_getNearestPad l (fst c) (snd c) = Ok (code k j).
Proof.
  intros rMin h l rows top H0 HM HS HT k x j HP Hk. destruct (vd_geometry _ _ _ _ _ H0 HM HS k x j HP) as [Ec _].
  eexists. split; [exact Ec|]. cbn [fst snd]. assert (HP' := HP). destruct HP' as [Hx [Hj [Hn _]]].
  destruct (story_row _ _ _ _ k x H0 HS Hx) as [Hx0 [HG [Hrc [Hp Hf]]]]. assert (Hh : 0 < va_height (snd x)) by apply HG.
  assert (Hin : In x rows) by (unfold nthZ in Hx; destruct (k <? 0)%Z; [discriminate|]; eapply nth_error_In; eauto).
  destruct (HT x Hin) as [Hpp _]. destruct (vd_edges _ _ _ _ _ _ _ H0 HS HP) as [Ep [Q1 Q2]].
  assert (A1 : IZR j + 1 <= IZR (va_nPads (snd x))) by (rewrite <- (plus_IZR j 1); apply IZR_le; lia).
  assert (Hlast : vd_phi x (j + 1) <= vd_phi x (va_nPads (snd x))) by (unfold vd_phi; rewrite plus_IZR; nra).
  set (m := (vd_phi x j + vd_phi x (j + 1)) / 2). assert (Hm : vd_phi x j < m < vd_phi x (j + 1)) by (unfold m; lra).
  destruct (vd_nearest_cell rMin h l rows top H0 HM HS HT k x (vd_rc x) m m Hx Hk ltac:(unfold vd_rc; lra) ltac:(right; unfold vd_rc; lra) (or_introl eq_refl) ltac:(lra)) as [j' [E [_ B]]].
  rewrite E. do 2 f_equal. clear - Hm B Hpp. unfold vd_phi in *. rewrite plus_IZR in *.
  assert (IZR j < IZR (j' + 1)) by (rewrite plus_IZR; apply Rmult_lt_reg_r with (vd_pitch x); auto; lra).
  assert (IZR j' < IZR (j + 1)) by (rewrite plus_IZR; apply Rmult_lt_reg_r with (vd_pitch x); auto; lra).
  apply lt_IZR in H, H0. lia.
Qed.
