(** Proofs about FixedPadAngleDiskLayout. *)
From Coq Require Import ZArith List String Bool Reals Lra Lia.
From Flocq Require Import Core.Raux.
From Verif Require Import Base RBase BitProofs DiskBase FpaModel DiskSpec DiskProofs FpsProofs.
From Verif Require RectSpec RectProofs5.
Import ListNotations.
Open Scope R_scope.

Definition prow_list (n : Z) (rows : Z) (k : nat) : list Z :=
  if (Z.of_nat k <? rows)%Z then map (disk_pack (Z.of_nat k)) (upto (Z.to_nat n)) else [].

Record prep (a : fpa_args) (l : fpa) : Prop := mkPrep {
  pr_rMin : p_rMin l = pa_rMin a; pr_rMax : p_rMax l = pa_rMax a;
  pr_phiMin : p_phiMin l = pa_phiMin a; pr_phiMax : p_phiMax l = pa_phiMax a;
  pr_nRow : p_nRow l = pa_nRow a; pr_pads : p_nPadsInRow l = pa_nPads a;
  pr_h : p_rowHeight l = (pa_rMax a - pa_rMin a) / IZR (pa_nRow a);
  pr_p : p_padAngle l = (pa_phiMax a - pa_phiMin a) / IZR (pa_nPads a);
  pr_n : (0 <= pa_nRow a)%Z; pr_nPad : p_nPad l = (pa_nRow a * pa_nPads a)%Z;
  pr_clen : Z.of_nat (List.length (p_padIndices l)) = pa_nRow a;
  pr_cache : cache_ok (prow_list (pa_nPads a) (pa_nRow a)) (p_padIndices l) }.

Lemma new_fpa_rep : forall a l,
  new_fpa (pa_rMin a) (pa_rMax a) (pa_nRow a) (pa_phiMin a) (pa_phiMax a) (pa_nPads a) = Ok l -> prep a l.
Proof.
  intros a l H. unfold new_fpa in H. destruct (Z.ltb_spec (pa_nRow a) 0); [discriminate|]. injection H as <-.
  split; cbn; auto; try lia.
  - rewrite repeat_length. lia.
  - apply cache_ok_none.
Qed.

Definition set_pcache (l : fpa) (c : list (option (list Z))) : fpa :=
  mkFpa (p_rMin l) (p_rMax l) (p_nRow l) (p_rowHeight l) (p_phiMin l) (p_phiMax l) (p_padAngle l)
        (p_nPadsInRow l) (p_nPad l) c.

Lemma fpa_pads_rep : forall a l r, prep a l ->
  (exists c, fpa_getPadsInRow l r = SOk (set_pcache l c) (if (r <? 0)%Z then [] else prow_list (pa_nPads a) (pa_nRow a) (Z.to_nat r)) /\ prep a (set_pcache l c))
  \/ (exists e, fpa_getPadsInRow l r = SThrow l e /\ (pa_nPads a < 0)%Z).
Proof.
  intros a l r HR. assert (Hid : set_pcache l (p_padIndices l) = l) by (destruct l; reflexivity).
  pose proof (pr_clen a l HR) as Hcl. unfold fpa_getPadsInRow, nthZ.
  destruct (Z.ltb_spec r 0) as [Hr|Hr].
  { left. exists (p_padIndices l). rewrite Hid. auto. }
  destruct (nth_error (p_padIndices l) (Z.to_nat r)) as [[v|]|] eqn:E.
  - left. exists (p_padIndices l). rewrite Hid. rewrite (pr_cache a l HR _ _ E). auto.
  - assert (Hlt : (Z.to_nat r < List.length (p_padIndices l))%nat) by (apply nth_error_Some; congruence).
    rewrite (pr_pads a l HR). destruct (Z.ltb_spec (pa_nPads a) 0) as [Hn|Hn]; [right; eauto|]. left.
    assert (Ev : fill_indices (fpa_getPadIndex l r) (Z.to_nat (pa_nPads a)) 0 = Ok (prow_list (pa_nPads a) (pa_nRow a) (Z.to_nat r))).
    { rewrite (fill_pack _ r).
      - unfold prow_list. destruct (Z.ltb_spec (Z.of_nat (Z.to_nat r)) (pa_nRow a)); [|lia].
        unfold RectSpec.upto. rewrite map_map, Z2Nat.id by lia. f_equal; try (apply map_ext; intros; f_equal; lia).
      - intros m Hm. unfold fpa_getPadIndex. rewrite (pr_nRow a l HR), (pr_pads a l HR).
        destruct (Z.ltb_spec (pa_nRow a - 1) r); [lia|]. destruct (Z.ltb_spec (pa_nPads a - 1) m); [lia|reflexivity]. }
    rewrite Ev. eexists. split.
    + unfold set_pcache. rewrite ?(pr_pads a l HR). reflexivity.
    + destruct HR. split; cbn; auto.
      * rewrite cache_set_length by auto. lia.
      * apply cache_ok_set; auto.
  - left. exists (p_padIndices l). rewrite Hid. split; auto. apply nth_error_None in E.
    unfold prow_list. destruct (Z.ltb_spec (Z.of_nat (Z.to_nat r)) (pa_nRow a)); [lia|reflexivity].
Qed.
Lemma fpa_asked_rep : forall a h l, prep a l -> forall l', fpa_asked l h = Some l' -> prep a l'.
Proof.
  intros a h; induction h as [|r t IH]; intros l HR l' H; cbn [fpa_asked] in H.
  - injection H as <-. auto.
  - destruct (fpa_pads_rep a l r HR) as [[c [E HR']]|[e [E _]]]; rewrite E in H; eauto.
Qed.
Lemma fpa_made_rep : forall a h l, fpa_made a h l -> prep a l.
Proof. intros a h l [l0 [H0 H1]]. apply new_fpa_rep in H0. eapply fpa_asked_rep; eauto. Qed.

(** a layout exists for all sane arguments *)
Lemma fpa_exists : forall a, fpa_sane a -> exists l, fpa_made a [] l.
Proof.
  intros a [_ [Hn _]]. unfold fpa_made, new_fpa. destruct (Z.ltb_spec (pa_nRow a) 0); [lia|].
  eexists. eexists. split; reflexivity.
Qed.

(** ** index *)
Lemma fpa_index_val : forall a l i j, prep a l -> fpa_sane a -> (0 <= i < pa_nRow a)%Z -> (0 <= j < pa_nPads a)%Z ->
  fpa_getPadIndex l i j = Ok (code i j).
Proof.
  intros a l i j HR HS Hi Hj. destruct HS as [_ [Hn [_ Hp]]]. unfold fpa_getPadIndex. rewrite (pr_nRow a l HR), (pr_pads a l HR).
  destruct (Z.ltb_spec (pa_nRow a - 1) i); [lia|]. destruct (Z.ltb_spec (pa_nPads a - 1) j); [lia|].
  now rewrite pack_code by lia.
Qed.
Lemma fpa_index_lossless : forall a h l, fpa_made a h l -> fpa_sane a -> forall i j, fpa_pad a i j ->
  fpa_getPadIndex l i j = Ok (code i j) /\
  disk_rowNumber (code i j) = i /\ disk_padNumber (code i j) = j /\
  forall i' j', fpa_pad a i' j' -> fpa_getPadIndex l i' j' = Ok (code i j) -> i' = i /\ j' = j.
Proof.
  intros a h l HM HS i j [Hi Hj]. pose proof (fpa_made_rep _ _ _ HM) as HR.
  split; [eapply fpa_index_val; eauto|]. assert (HS' := HS). destruct HS' as [_ [Hn [_ Hp]]].
  split; [apply code_row; lia|]. split; [apply code_pad; lia|].
  intros i' j' [Hi' Hj'] E. rewrite (fpa_index_val a l) in E by auto.
  assert (E' : code i' j' = code i j) by congruence. apply RectProofs5.code_inj in E'; lia.
Qed.
Lemma fpa_index_refused : forall a h l, fpa_made a h l -> forall i j,
  ((exists p, fpa_getPadIndex l i j = Ok p) <-> (i < pa_nRow a /\ j < pa_nPads a)%Z) /\
  (~ (i < pa_nRow a /\ j < pa_nPads a)%Z -> exists e, fpa_getPadIndex l i j = Throw e).
Proof.
  intros a h l HM i j. pose proof (fpa_made_rep _ _ _ HM) as HR. unfold fpa_getPadIndex.
  rewrite (pr_nRow a l HR), (pr_pads a l HR).
  destruct (Z.ltb_spec (pa_nRow a - 1) i), (Z.ltb_spec (pa_nPads a - 1) j); split; try split; intros; eauto; try lia;
    match goal with H : exists _, Throw _ = Ok _ |- _ => destruct H; discriminate | _ => idtac end.
Qed.

(** ** geometry *)
Lemma fpa_centre_val : forall a l i j, prep a l -> fpa_sane a -> (0 <= i < pa_nRow a)%Z -> (0 <= j < pa_nPads a)%Z ->
  fpa_getPadCenter l (code i j) = ((fpa_r a i + fpa_r a (i + 1)) / 2, (fpa_phi a j + fpa_phi a (j + 1)) / 2).
Proof.
  intros a l i j HR HS Hi Hj. destruct HS as [_ [Hn [_ Hp]]]. unfold fpa_getPadCenter.
  rewrite code_row, code_pad by lia. rewrite (pr_h a l HR), (pr_p a l HR), (pr_rMin a l HR), (pr_phiMin a l HR).
  unfold fpa_r, fpa_phi. rewrite !plus_IZR. f_equal; field; apply not_0_IZR; lia.
Qed.
Lemma fpa_edges : forall a i j, fpa_sane a -> (0 <= i < pa_nRow a)%Z -> (0 <= j < pa_nPads a)%Z ->
  fpa_r a (i + 1) - fpa_r a i = (pa_rMax a - pa_rMin a) / IZR (pa_nRow a) /\
  fpa_phi a (j + 1) - fpa_phi a j = (pa_phiMax a - pa_phiMin a) / IZR (pa_nPads a) /\
  pa_rMin a <= fpa_r a i < fpa_r a (i + 1) /\ fpa_r a (i + 1) <= pa_rMax a /\
  pa_phiMin a <= fpa_phi a j < fpa_phi a (j + 1) /\ fpa_phi a (j + 1) <= pa_phiMax a.
Proof.
  intros a i j HS Hi Hj. destruct HS as [Hr [Hn [Hp Hq]]]. unfold fpa_r, fpa_phi. rewrite !plus_IZR.
  assert (0 < IZR (pa_nRow a)) by (apply (IZR_lt 0); lia). assert (0 < IZR (pa_nPads a)) by (apply (IZR_lt 0); lia).
  assert (A0 : 0 <= IZR i) by (apply (IZR_le 0); lia). assert (B0 : 0 <= IZR j) by (apply (IZR_le 0); lia).
  assert (A1 : IZR i + 1 <= IZR (pa_nRow a)) by (rewrite <- (plus_IZR i 1); apply IZR_le; lia).
  assert (B1 : IZR j + 1 <= IZR (pa_nPads a)) by (rewrite <- (plus_IZR j 1); apply IZR_le; lia).
  set (h := (pa_rMax a - pa_rMin a) / IZR (pa_nRow a)). set (p := (pa_phiMax a - pa_phiMin a) / IZR (pa_nPads a)).
  assert (Hh : 0 < h) by (apply Rdiv_lt_0_compat; lra). assert (Hpp : 0 < p) by (apply Rdiv_lt_0_compat; lra).
  assert (Et : IZR (pa_nRow a) * h = pa_rMax a - pa_rMin a) by (unfold h; field; lra).
  assert (Ep : IZR (pa_nPads a) * p = pa_phiMax a - pa_phiMin a) by (unfold p; field; lra).
  split; [lra|]. split; [lra|]. repeat split; nra.
Qed.

Lemma same_window : forall lo x y, same_angle x y -> lo <= x <= lo + 2 * PI -> lo < y < lo + 2 * PI -> x = y.
Proof.
  intros lo x y [k ->] Hx Hy. pose proof PI2_pos.
  assert (Hk : (-1 < k < 1)%Z).
  { split; apply lt_IZR; simpl; apply Rmult_lt_reg_l with (2 * PI); auto; lra. }
  assert (k = 0)%Z by lia. subst k. simpl. lra.
Qed.

(** ** nearest pad inside the wedge *)
Definition fpa_turn (l : fpa) (phi : R) : R :=
  wrap_down ((p_phiMax l + p_phiMin l) / 2 + PI) (wrap_up ((p_phiMax l + p_phiMin l) / 2 - PI) phi).
Lemma fpa_turn_id : forall a l phi, prep a l -> fpa_sane a -> pa_phiMin a <= phi <= pa_phiMax a -> fpa_turn l phi = phi.
Proof.
  intros a l phi HR HS Hphi. destruct HS as [_ [_ [Hp _]]]. unfold fpa_turn. rewrite (pr_phiMin a l HR), (pr_phiMax a l HR).
  apply wrap_id. lra.
Qed.
Lemma fpa_turn_same : forall a l phi phi', prep a l -> fpa_sane a -> pa_phiMin a < phi' < pa_phiMax a -> same_angle phi phi' ->
  fpa_turn l phi = phi'.
Proof.
  intros a l phi phi' HR HS Hphi HA. destruct HS as [_ [_ [Hp _]]]. pose proof PI2_pos. unfold fpa_turn. rewrite (pr_phiMin a l HR), (pr_phiMax a l HR).
  set (m := (pa_phiMax a + pa_phiMin a) / 2). apply (same_window (m - PI)); unfold m in *; try lra.
  - destruct HA as [k ->]. destruct (wrap_same ((pa_phiMax a + pa_phiMin a) / 2 - PI) ((pa_phiMax a + pa_phiMin a) / 2 + PI) (phi' + 2 * PI * IZR k)) as [k' E].
    exists (k + k')%Z. rewrite E, plus_IZR. lra.
  - pose proof (wrap_window ((pa_phiMax a + pa_phiMin a) / 2 - PI) ((pa_phiMax a + pa_phiMin a) / 2 + PI) phi). lra.
Qed.

(** the row of a radius *)
Lemma fpa_row_val : forall a l r, prep a l -> fpa_sane a -> 0 <= r < pa_rMin a + 2147483648 * fpa_getRowHeight l 0 ->
  exists i, rbind (if Rltb r (p_rMin l) then Ok 0%Z else floor_div (r - p_rMin l) (p_rowHeight l))
     (fun m => Ok (if (p_nRow l <=? m)%Z then (p_nRow l - 1)%Z else m)) = Ok i /\
    (0 <= i < pa_nRow a)%Z /\ (r < pa_rMin a -> i = 0%Z) /\ (pa_rMax a <= r -> i = (pa_nRow a - 1)%Z) /\
    (pa_rMin a <= r < pa_rMax a -> fpa_r a i <= r < fpa_r a (i + 1)).
Proof.
  intros a l r HR HS Hr. destruct HS as [Hrr [Hn [Hp Hq]]]. unfold fpa_getRowHeight in Hr.
  rewrite (pr_rMin a l HR), (pr_nRow a l HR). rewrite (pr_h a l HR) in *.
  assert (Hnn : 0 < IZR (pa_nRow a)) by (apply (IZR_lt 0); lia).
  unfold fpa_r. set (h := (pa_rMax a - pa_rMin a) / IZR (pa_nRow a)) in *.
  assert (Hh : 0 < h) by (apply Rdiv_lt_0_compat; lra).
  assert (Et : IZR (pa_nRow a) * h = pa_rMax a - pa_rMin a) by (unfold h; field; lra).
  destruct (Rltb_spec r (pa_rMin a)) as [C|C].
  - exists 0%Z. cbn [rbind]. destruct (Z.leb_spec (pa_nRow a) 0); [lia|]. split; [auto|]. split; [lia|]. split; [auto|]. split; intros; lra.
  - set (x := (r - pa_rMin a) / h). assert (Ex : r - pa_rMin a = x * h) by (unfold x; field; lra).
    assert (Hx0 : 0 <= x). { apply Rmult_le_pos; [lra|]. left; apply Rinv_0_lt_compat; lra. }
    pose proof (Zfloor_lb x) as L. pose proof (Zfloor_ub x) as U.
    assert (Hm0 : (0 <= Zfloor x)%Z) by (apply (Zfloor_lub 0); simpl; lra).
    assert (Hm1 : (Zfloor x < 2147483648)%Z).
    { apply lt_IZR. apply Rle_lt_trans with x; auto. apply Rmult_lt_reg_r with h; auto. lra. }
    rewrite (floor_div_val _ _ (Zfloor x)); [|lra|unfold int_ok; lia|fold x; lra]. cbn [rbind].
    assert (H1 : IZR (Zfloor x) * h <= x * h) by (apply Rmult_le_compat_r; lra).
    assert (H2 : x * h < (IZR (Zfloor x) + 1) * h) by (apply Rmult_lt_compat_r; lra).
    eexists. split; [reflexivity|]. split; [destruct (Z.leb_spec (pa_nRow a) (Zfloor x)); lia|]. split; [intros; lra|].
    destruct (Z.leb_spec (pa_nRow a) (Zfloor x)) as [D|D].
    + split; [auto|]. intros [_ Hlt]. exfalso. apply IZR_le in D.
      assert (IZR (pa_nRow a) * h <= IZR (Zfloor x) * h) by (apply Rmult_le_compat_r; lra). lra.
    + split.
      * intros Hge. exfalso. assert (IZR (Zfloor x) + 1 <= IZR (pa_nRow a)) by (rewrite <- (plus_IZR _ 1); apply IZR_le; lia).
        assert ((IZR (Zfloor x) + 1) * h <= IZR (pa_nRow a) * h) by (apply Rmult_le_compat_r; lra). lra.
      * intros _. rewrite plus_IZR. lra.
Qed.

Lemma fpa_nearest_wedge : forall l r phi, 0 <= r -> p_phiMin l <= fpa_turn l phi <= p_phiMax l ->
  fpa_getNearestPad l r phi =
  rbind (trunc_div (fpa_turn l phi - p_phiMin l) (p_padAngle l)) (fun padNumber =>
  rbind (rbind (if Rltb r (p_rMin l) then Ok 0%Z else floor_div (r - p_rMin l) (p_rowHeight l))
     (fun m => Ok (if (p_nRow l <=? m)%Z then (p_nRow l - 1)%Z else m))) (fun rowNum =>
  fpa_getPadIndex l rowNum padNumber)).
Proof.
  intros l r phi Hr Ht. unfold fpa_getNearestPad. destruct (Rltb_spec r 0); [lra|]. fold (fpa_turn l phi).
  destruct (Rleb_spec (fpa_turn l phi) (p_phiMax l)); [|lra]. destruct (Rleb_spec (p_phiMin l) (fpa_turn l phi)); [|lra]. cbn [andb].
  destruct (trunc_div _ _); cbn [rbind]; auto. destruct (if Rltb r (p_rMin l) then _ else _); cbn [rbind]; auto.
Qed.

Lemma fpa_nearest_cell : forall a h l, fpa_made a h l -> fpa_sane a ->
  forall r phi phi', 0 <= r < pa_rMin a + 2147483648 * fpa_getRowHeight l 0 ->
  phi = phi' /\ pa_phiMin a <= phi' < pa_phiMax a \/ same_angle phi phi' /\ pa_phiMin a < phi' < pa_phiMax a ->
  exists i j, fpa_getNearestPad l r phi = Ok (code i j) /\ fpa_pad a i j /\
    fpa_phi a j <= phi' < fpa_phi a (j + 1) /\
    (r < pa_rMin a -> i = 0%Z) /\ (pa_rMax a <= r -> i = (pa_nRow a - 1)%Z) /\
    (pa_rMin a <= r < pa_rMax a -> fpa_r a i <= r < fpa_r a (i + 1)).
Proof.
  intros a h0 l HM HS r phi phi' Hr Hphi. pose proof (fpa_made_rep _ _ _ HM) as HR.
  assert (Ht : fpa_turn l phi = phi') by (destruct Hphi as [[-> ?]|[? ?]]; [apply (fpa_turn_id a); auto; lra|eapply fpa_turn_same; eauto]).
  assert (Hphi' : pa_phiMin a <= phi' < pa_phiMax a) by (destruct Hphi as [[_ ?]|[_ ?]]; lra).
  rewrite fpa_nearest_wedge by (rewrite ?Ht, ?(pr_phiMin a l HR), ?(pr_phiMax a l HR); lra). rewrite Ht.
  destruct (fpa_row_val a l r HR HS Hr) as [i [Ei [Hi Hrest]]]. rewrite Ei.
  assert (HS' := HS). destruct HS' as [Hrr [Hn [Hp Hq]]].
  rewrite (pr_phiMin a l HR), (pr_p a l HR).
  assert (Hnn : 0 < IZR (pa_nPads a)) by (apply (IZR_lt 0); lia).
  unfold fpa_phi. set (p := (pa_phiMax a - pa_phiMin a) / IZR (pa_nPads a)) in *.
  assert (Hpp : 0 < p) by (apply Rdiv_lt_0_compat; lra).
  assert (Ep : IZR (pa_nPads a) * p = pa_phiMax a - pa_phiMin a) by (unfold p; field; lra).
  destruct (floor_cell ((phi' - pa_phiMin a) / p) (pa_nPads a) ltac:(lia)) as [j [Hj B]].
  { split; [apply Rmult_le_pos; [lra|left; apply Rinv_0_lt_compat; lra]|].
    apply Rmult_lt_reg_r with p; auto. replace ((phi' - pa_phiMin a) / p * p) with (phi' - pa_phiMin a) by (field; lra). lra. }
  rewrite (trunc_div_val _ _ j); [|lra|unfold int_ok; lia|lia|lra]. cbn [rbind].
  exists i, j. split; [eapply fpa_index_val; eauto|]. split; [split; auto|]. split; [|exact Hrest].
  assert (E : phi' - pa_phiMin a = (phi' - pa_phiMin a) / p * p) by (field; lra).
  assert (IZR j * p <= (phi' - pa_phiMin a) / p * p) by (apply Rmult_le_compat_r; lra).
  assert ((phi' - pa_phiMin a) / p * p < (IZR j + 1) * p) by (apply Rmult_lt_compat_r; lra).
  rewrite plus_IZR. lra.
Qed.

Lemma fpa_nearest_edge_throws : forall a h l, fpa_made a h l -> fpa_sane a ->
  forall r, 0 <= r < pa_rMin a + 2147483648 * fpa_getRowHeight l 0 ->
  exists e, fpa_getNearestPad l r (pa_phiMax a) = Throw e.
Proof.
  intros a h l HM HS r Hr. pose proof (fpa_made_rep _ _ _ HM) as HR.
  assert (HS' := HS). destruct HS' as [Hrr [Hn [Hp Hq]]].
  assert (Ht : fpa_turn l (pa_phiMax a) = pa_phiMax a) by (apply (fpa_turn_id a); auto; lra).
  rewrite fpa_nearest_wedge by (rewrite ?Ht, ?(pr_phiMin a l HR), ?(pr_phiMax a l HR); lra). rewrite Ht.
  destruct (fpa_row_val a l r HR HS Hr) as [i [Ei [Hi _]]]. rewrite Ei.
  rewrite (pr_phiMin a l HR), (pr_p a l HR).
  assert (Hnn : 0 < IZR (pa_nPads a)) by (apply (IZR_lt 0); lia).
  rewrite (trunc_div_val _ _ (pa_nPads a)); [| |unfold int_ok; lia|lia|].
  - cbn [rbind]. unfold fpa_getPadIndex. rewrite (pr_nRow a l HR), (pr_pads a l HR).
    destruct (Z.ltb_spec (pa_nRow a - 1) i); [eauto|]. destruct (Z.ltb_spec (pa_nPads a - 1) (pa_nPads a)); [eauto|lia].
  - apply Rgt_not_eq. apply Rdiv_lt_0_compat; lra.
  - replace ((pa_phiMax a - pa_phiMin a) / ((pa_phiMax a - pa_phiMin a) / IZR (pa_nPads a))) with (IZR (pa_nPads a)) by (field; split; lra). lra.
Qed.

(** ** nearest pad outside the wedge *)
Lemma fpa_edge_row_val : forall a l r phi edge, prep a l -> fpa_sane a -> 0 <= r < pa_rMin a + 2147483648 * fpa_getRowHeight l 0 ->
  exists i, fpa_edge_row l r phi edge = Ok i /\ (0 <= i < pa_nRow a)%Z.
Proof.
  intros a l r phi edge HR HS Hr. assert (HS' := HS). destruct HS' as [Hrr [Hn _]]. unfold fpa_edge_row.
  destruct (Rltb_spec (PI / 2) (Rabs (phi - edge))); [exists 0%Z; split; [reflexivity|lia]|].
  destruct (Rltb_spec (r * (cos phi * cos edge + sin phi * sin edge)) (p_rMin l)) as [C|C].
  - exists 0%Z. cbn [rmap]. rewrite (pr_nRow a l HR). destruct (Z.leb_spec (pa_nRow a) 0); [lia|]. split; [reflexivity|lia].
  - destruct (fpa_row_val a l r HR HS Hr) as [i [Ei [Hi _]]]. exists i. split; auto.
    rewrite <- cos_minus in C. rewrite (pr_rMin a l HR) in C. pose proof (COS_bound (phi - edge)).
    assert (pa_rMin a <= r) by nra. destruct (Rltb_spec r (p_rMin l)) as [D|D]; [rewrite (pr_rMin a l HR) in D; lra|].
    destruct (floor_div (r - p_rMin l) (p_rowHeight l)); cbn [rbind rmap] in *; auto.
Qed.
Lemma fpa_nearest_total : forall a h l, fpa_made a h l -> fpa_sane a ->
  forall r phi, 0 <= r < pa_rMin a + 2147483648 * fpa_getRowHeight l 0 -> ~ same_angle phi (pa_phiMax a) ->
  exists i j, fpa_getNearestPad l r phi = Ok (code i j) /\ fpa_pad a i j.
Proof.
  intros a h l HM HS r phi Hr Hne. pose proof (fpa_made_rep _ _ _ HM) as HR. assert (HS' := HS). destruct HS' as [Hrr [Hn [Hp Hq]]].
  assert (Hsame : same_angle (fpa_turn l phi) phi) by (apply wrap_same).
  destruct (Rle_lt_dec (pa_phiMin a) (fpa_turn l phi)) as [C1|C1].
  1: destruct (Rle_lt_dec (fpa_turn l phi) (pa_phiMax a)) as [C2|C2].
  { assert (C3 : fpa_turn l phi < pa_phiMax a).
    { destruct C2 as [C2|C2]; auto. exfalso. apply Hne. destruct Hsame as [k E]. exists (- k)%Z. rewrite opp_IZR, <- C2, E. lra. }
    destruct (fpa_nearest_cell a h l HM HS r (fpa_turn l phi) (fpa_turn l phi) Hr (or_introl (conj eq_refl (conj C1 C3)))) as [i [j [E [Hpad _]]]].
    exists i, j. split; [|exact Hpad]. rewrite <- E.
    assert (Et : fpa_turn l (fpa_turn l phi) = fpa_turn l phi) by (apply (fpa_turn_id a); auto; lra).
    rewrite (fpa_nearest_wedge l r phi), (fpa_nearest_wedge l r (fpa_turn l phi)); rewrite ?Et, ?(pr_phiMin a l HR), ?(pr_phiMax a l HR); try lra.
    reflexivity. }
  all: unfold fpa_getNearestPad; destruct (Rltb_spec r 0); [lra|]; fold (fpa_turn l phi);
    rewrite (pr_phiMin a l HR), (pr_phiMax a l HR);
    destruct (Rleb_spec (fpa_turn l phi) (pa_phiMax a)); destruct (Rleb_spec (pa_phiMin a) (fpa_turn l phi)); try lra; cbn [andb];
    destruct (fpa_edge_row_val a l r (fpa_turn l phi) (pa_phiMin a) HR HS Hr) as [i1 [E1 I1]];
    destruct (fpa_edge_row_val a l r (fpa_turn l phi) (pa_phiMax a) HR HS Hr) as [i2 [E2 I2]];
    rewrite E1, E2; cbn [rbind]; rewrite (pr_pads a l HR);
    rewrite (fpa_index_val a l i1 0), (fpa_index_val a l i2 (pa_nPads a - 1)) by (auto; lia); cbn [rbind rmap];
    destruct (Rltb _ _); eexists _, _; (split; [reflexivity|]); split; lia.
Qed.

(** ** neighbours *)
Lemma fpa_neighbours : forall a h l, fpa_made a h l -> fpa_sane a -> forall i j, fpa_pad a i j ->
  let full := Rabs (pa_phiMax a - pa_phiMin a - 2 * PI) < 1 / 1000000 in
  let np := pa_nPads a in
  ((j < np - 1)%Z -> fpa_getLeftNeighbour l (code i j) = Ok (code i (j + 1))) /\
  (full -> fpa_getLeftNeighbour l (code i (np - 1)) = Ok (code i 0)) /\
  (~ full -> exists e, fpa_getLeftNeighbour l (code i (np - 1)) = Throw e) /\
  ((0 < j)%Z -> fpa_getRightNeighbour l (code i j) = Ok (code i (j - 1))) /\
  (full -> fpa_getRightNeighbour l (code i 0) = Ok (code i (np - 1))) /\
  (~ full -> exists e, fpa_getRightNeighbour l (code i 0) = Throw e).
Proof.
  intros a h l HM HS i j [Hi Hj] full np. pose proof (fpa_made_rep _ _ _ HM) as HR. assert (HS' := HS). destruct HS' as [_ [Hn [_ Hp]]].
  assert (Hfull : fpa_full l = true <-> full).
  { unfold fpa_full. rewrite Rltb_true, (pr_phiMin a l HR), (pr_phiMax a l HR). reflexivity. }
  unfold fpa_getLeftNeighbour, fpa_getRightNeighbour. rewrite (pr_pads a l HR). fold np in Hj, Hp |- *.
  assert (Hidx : forall m, (0 <= m < np)%Z -> fpa_getPadIndex l i m = Ok (code i m)) by (intros; eapply fpa_index_val; eauto).
  split; [|split; [|split; [|split; [|split]]]]; intros H; rewrite code_row, code_pad by lia.
  - destruct (Z.eqb_spec (j + 1) np); [lia|]. apply Hidx; lia.
  - apply Hfull in H. destruct (Z.eqb_spec (np - 1 + 1) np); [|lia]. rewrite H. apply Hidx; lia.
  - destruct (Z.eqb_spec (np - 1 + 1) np); [|lia]. destruct (fpa_full l); [exfalso; apply H; now apply Hfull|eauto].
  - destruct (Z.eqb_spec (j - 1) (-1)); [lia|]. apply Hidx; lia.
  - apply Hfull in H. destruct (Z.eqb_spec (0 - 1) (-1)); [|lia]. rewrite H. apply Hidx; lia.
  - destruct (Z.eqb_spec (0 - 1) (-1)); [|lia]. destruct (fpa_full l); [exfalso; apply H; now apply Hfull|eauto].
Qed.

(** ** inside and distance *)
Lemma fpa_inside_exact : forall a h l, fpa_made a h l -> fpa_sane a -> forall i j, fpa_pad a i j -> forall r phi,
  fpa_isInsidePad l r phi (code i j) = true <->
  fpa_r a i <= r <= fpa_r a (i + 1) /\ fpa_phi a j <= phi <= fpa_phi a (j + 1).
Proof.
  intros a h l HM HS i j [Hi Hj] r phi. pose proof (fpa_made_rep _ _ _ HM) as HR.
  destruct (fpa_edges a i j HS Hi Hj) as [Eh [Ep _]].
  unfold fpa_isInsidePad. rewrite (fpa_centre_val a l i j HR HS Hi Hj). cbn [fst snd].
  rewrite (pr_h a l HR), (pr_p a l HR), <- Eh, <- Ep.
  repeat rcase; cbn [orb negb]; split; intros; try discriminate; try reflexivity; lra.
Qed.
Lemma fpa_inside_any_exact : forall a h l, fpa_made a h l -> fpa_sane a -> forall r phi,
  (fpa_isInsideAnyPad l r phi = true <-> pa_rMin a <= r <= pa_rMax a /\ pa_phiMin a <= phi <= pa_phiMax a) /\
  (fpa_isInsideAnyPad l r phi = true <-> exists i j, fpa_pad a i j /\ fpa_isInsidePad l r phi (code i j) = true).
Proof.
  intros a h l HM HS r phi. pose proof (fpa_made_rep _ _ _ HM) as HR.
  assert (H1 : fpa_isInsideAnyPad l r phi = true <-> pa_rMin a <= r <= pa_rMax a /\ pa_phiMin a <= phi <= pa_phiMax a).
  { unfold fpa_isInsideAnyPad. rewrite (pr_rMin a l HR), (pr_rMax a l HR), (pr_phiMin a l HR), (pr_phiMax a l HR).
    repeat rcase; cbn [orb negb]; split; intros; try discriminate; try reflexivity; lra. }
  split; [exact H1|]. rewrite H1. assert (HS' := HS). destruct HS' as [Hrr [Hn [Hp Hq]]]. split.
  - intros [Hr Hphi].
    assert (Hcell : forall n lo hi x, (0 < n)%Z -> lo < hi -> lo <= x <= hi -> exists k, (0 <= k < n)%Z /\
       lo + IZR k * ((hi - lo) / IZR n) <= x <= lo + IZR (k + 1) * ((hi - lo) / IZR n)).
    { intros n lo hi x Hn0 Hlh Hx. assert (0 < IZR n) by (apply (IZR_lt 0); lia).
      set (s := (hi - lo) / IZR n). assert (0 < s) by (apply Rdiv_lt_0_compat; lra).
      assert (Es : IZR n * s = hi - lo) by (unfold s; field; lra).
      destruct (Rlt_le_dec x hi) as [C|C].
      - destruct (floor_cell ((x - lo) / s) n Hn0) as [k [Hk B]].
        { split; [apply Rmult_le_pos; [lra|left; apply Rinv_0_lt_compat; lra]|].
          apply Rmult_lt_reg_r with s; auto. replace ((x - lo) / s * s) with (x - lo) by (field; lra). lra. }
        exists k. split; auto. assert (E : x - lo = (x - lo) / s * s) by (field; lra). rewrite plus_IZR.
        assert (IZR k * s <= (x - lo) / s * s) by (apply Rmult_le_compat_r; lra).
        assert ((x - lo) / s * s < (IZR k + 1) * s) by (apply Rmult_lt_compat_r; lra). lra.
      - exists (n - 1)%Z. split; [lia|]. rewrite plus_IZR, minus_IZR. lra. }
    destruct (Hcell (pa_nRow a) (pa_rMin a) (pa_rMax a) r ltac:(lia) ltac:(lra) Hr) as [i [Hi Bi]].
    destruct (Hcell (pa_nPads a) (pa_phiMin a) (pa_phiMax a) phi ltac:(lia) ltac:(lra) Hphi) as [j [Hj Bj]].
    exists i, j. split; [split; auto|]. apply (fpa_inside_exact a h l HM HS i j (conj Hi Hj)). split; auto.
  - intros [i [j [[Hi Hj] H]]]. apply (fpa_inside_exact a h l HM HS i j (conj Hi Hj)) in H.
    destruct (fpa_edges a i j HS Hi Hj) as [_ [_ [Q1 [Q2 [Q3 Q4]]]]]. lra.
Qed.
Lemma fpa_distance : forall a h l, fpa_made a h l -> fpa_sane a -> forall i j, fpa_pad a i j ->
  forall r phi, 0 <= r -> pa_phiMax a - 2 * PI <= phi <= pa_phiMin a + 2 * PI ->
  is_sector_dist r phi (fpa_r a i) (fpa_r a (i + 1)) (fpa_phi a j) (fpa_phi a (j + 1)) (fpa_getDistanceToPad l r phi (code i j)).
Proof.
  intros a h l HM HS i j [Hi Hj] r phi Hr Hphi. pose proof (fpa_made_rep _ _ _ HM) as HR.
  destruct (fpa_edges a i j HS Hi Hj) as [Eh [Ep [Q1 [Q2 [Q3 Q4]]]]]. destruct HS as [Hrr [Hn [Hp Hq]]].
  unfold fpa_getDistanceToPad. rewrite (fpa_centre_val a l i j HR (conj Hrr (conj Hn (conj Hp Hq))) Hi Hj).
  unfold fpa_getRowHeight, fpa_getPadPitch. rewrite (pr_h a l HR), (pr_p a l HR), <- Eh, <- Ep.
  set (r0 := fpa_r a i) in *. set (r1 := fpa_r a (i + 1)) in *. set (p0 := fpa_phi a j) in *. set (p1 := fpa_phi a (j + 1)) in *.
  pose proof (disk_distance_euclid ((r0 + r1) / 2, (p0 + p1) / 2) (r1 - r0) (p1 - p0) r phi) as D. cbn [fst snd] in D.
  replace ((r0 + r1) / 2 - (r1 - r0) / 2) with r0 in D by lra. replace ((r0 + r1) / 2 + (r1 - r0) / 2) with r1 in D by lra.
  replace ((p0 + p1) / 2 - (p1 - p0) / 2) with p0 in D by lra. replace ((p0 + p1) / 2 + (p1 - p0) / 2) with p1 in D by lra.
  apply D; lra.
Qed.
Lemma fpa_centre_inside : forall a h l, fpa_made a h l -> fpa_sane a -> forall i j, fpa_pad a i j ->
  let c := fpa_getPadCenter l (code i j) in
  c = ((fpa_r a i + fpa_r a (i + 1)) / 2, (fpa_phi a j + fpa_phi a (j + 1)) / 2) /\
  fpa_isInsidePad l (fst c) (snd c) (code i j) = true /\ fpa_getDistanceToPad l (fst c) (snd c) (code i j) = 0 /\
  fpa_getNearestPad l (fst c) (snd c) = Ok (code i j).
Proof.
  intros a h l HM HS i j HP c. pose proof (fpa_made_rep _ _ _ HM) as HR. assert (HP' := HP). destruct HP' as [Hi Hj].
  destruct (fpa_edges a i j HS Hi Hj) as [Eh [Ep [Q1 [Q2 [Q3 Q4]]]]].
  assert (Ec : c = ((fpa_r a i + fpa_r a (i + 1)) / 2, (fpa_phi a j + fpa_phi a (j + 1)) / 2)) by (apply (fpa_centre_val a l i j HR HS Hi Hj)).
  split; [exact Ec|]. split; [|split].
  - apply (fpa_inside_exact a h l HM HS i j HP). rewrite Ec. cbn [fst snd]. lra.
  - unfold fpa_getDistanceToPad. fold c. apply disk_distance_centre; unfold fpa_getRowHeight, fpa_getPadPitch; rewrite ?(pr_h a l HR), ?(pr_p a l HR); lra.
  - assert (HS' := HS). destruct HS' as [Hrr [Hn [Hp Hq]]].
    assert (Hhp : 0 < fpa_getRowHeight l 0) by (unfold fpa_getRowHeight; rewrite (pr_h a l HR); lra).
    assert (Hmax : pa_rMax a <= pa_rMin a + 65536 * fpa_getRowHeight l 0).
    { unfold fpa_getRowHeight. rewrite (pr_h a l HR). assert (0 < IZR (pa_nRow a) <= 65536) by (split; [apply (IZR_lt 0); lia|apply (IZR_le _ 65536); lia]).
      assert (IZR (pa_nRow a) * ((pa_rMax a - pa_rMin a) / IZR (pa_nRow a)) = pa_rMax a - pa_rMin a) by (field; lra).
      assert (0 < (pa_rMax a - pa_rMin a) / IZR (pa_nRow a)) by (apply Rdiv_lt_0_compat; lra). nra. }
    destruct (fpa_nearest_cell a h l HM HS (fst c) (snd c) (snd c)) as [i' [j' [E [[Hi' Hj'] [B1 [_ [_ B2]]]]]]].
    { rewrite Ec. cbn [fst snd]. lra. }
    { left. rewrite Ec. cbn [fst snd]. split; [auto|lra]. }
    rewrite E. rewrite Ec in B1, B2. cbn [fst snd] in B1, B2. specialize (B2 ltac:(lra)).
    assert (Hun : forall s k k' lo x, 0 < s -> lo + IZR k * s <= x < lo + IZR (k + 1) * s -> lo + IZR k' * s <= x < lo + IZR (k' + 1) * s -> k = k').
    { intros s k k' lo x Hs A B. rewrite plus_IZR in A, B.
      assert (IZR k < IZR (k' + 1)) by (rewrite plus_IZR; apply Rmult_lt_reg_r with s; auto; lra).
      assert (IZR k' < IZR (k + 1)) by (rewrite plus_IZR; apply Rmult_lt_reg_r with s; auto; lra).
      apply lt_IZR in H, H0. lia. }
    f_equal. f_equal.
    + apply (Hun ((pa_rMax a - pa_rMin a) / IZR (pa_nRow a)) _ _ (pa_rMin a) ((fpa_r a i + fpa_r a (i + 1)) / 2)); [lra|exact B2|].
      change (pa_rMin a + IZR i * ((pa_rMax a - pa_rMin a) / IZR (pa_nRow a))) with (fpa_r a i).
      change (pa_rMin a + IZR (i + 1) * ((pa_rMax a - pa_rMin a) / IZR (pa_nRow a))) with (fpa_r a (i + 1)). lra.
    + apply (Hun ((pa_phiMax a - pa_phiMin a) / IZR (pa_nPads a)) _ _ (pa_phiMin a) ((fpa_phi a j + fpa_phi a (j + 1)) / 2)); [lra|exact B1|].
      change (pa_phiMin a + IZR j * ((pa_phiMax a - pa_phiMin a) / IZR (pa_nPads a))) with (fpa_phi a j).
      change (pa_phiMin a + IZR (j + 1) * ((pa_phiMax a - pa_phiMin a) / IZR (pa_nPads a))) with (fpa_phi a (j + 1)). lra.
Qed.

(** ** lists, counts and clones *)
Lemma fpa_asked_app : forall h l i, fpa_asked l (h ++ [i]) =
  match fpa_asked l h with Some l' => fpa_asked l' [i] | None => None end.
Proof.
  induction h as [|r t IH]; intros l i; [reflexivity|]. change ((r :: t) ++ [i]) with (r :: (t ++ [i])).
  cbn [fpa_asked]. destruct (fpa_getPadsInRow l r); [apply IH|apply IH|reflexivity].
Qed.
Lemma fpa_pads_list : forall a h l, fpa_made a h l -> fpa_sane a ->
  forall i, exists l' v, fpa_getPadsInRow l i = SOk l' v /\ fpa_made a (h ++ [i]) l' /\
    ((i < 0 \/ pa_nRow a <= i)%Z -> v = []) /\
    ((0 <= i < pa_nRow a)%Z -> v = map (code i) (upto (Z.to_nat (pa_nPads a)))).
Proof.
  intros a h l HM HS i. pose proof (fpa_made_rep _ _ _ HM) as HR. destruct HS as [_ [Hn [_ Hp]]].
  destruct (fpa_pads_rep a l i HR) as [[c [E HR']]|[e [E Hneg]]]; [|lia].
  eexists _, _. split; [exact E|]. split.
  { destruct HM as [l0 [H0 H1]]. exists l0. split; auto. rewrite fpa_asked_app, H1. cbn [fpa_asked]. now rewrite E. }
  unfold prow_list. split; intros Hi; destruct (Z.ltb_spec i 0); try lia; auto.
  - destruct (Z.ltb_spec (Z.of_nat (Z.to_nat i)) (pa_nRow a)); [lia|reflexivity].
  - destruct (Z.ltb_spec (Z.of_nat (Z.to_nat i)) (pa_nRow a)); [|lia]. rewrite Z2Nat.id by lia.
    apply map_ext_in. intros m Hm. unfold RectSpec.upto in Hm. apply in_map_iff in Hm. destruct Hm as [x [<- Hx]]. apply in_seq in Hx.
    apply pack_code; lia.
Qed.
Lemma fpa_counts : forall a h l, fpa_made a h l ->
  fpa_getNRows l = pa_nRow a /\ fpa_getNPads l = (pa_nRow a * pa_nPads a)%Z /\
  fpa_getPlaneExtent l = [pa_rMin a; pa_rMax a; pa_phiMin a; pa_phiMax a] /\
  (pa_nRow a <> 0%Z -> forall i, IZR (pa_nRow a) * fpa_getRowHeight l i = pa_rMax a - pa_rMin a) /\
  (pa_nPads a <> 0%Z -> forall i, IZR (pa_nPads a) * fpa_getPadPitch l i = pa_phiMax a - pa_phiMin a).
Proof.
  intros a h l HM. pose proof (fpa_made_rep _ _ _ HM) as HR. unfold fpa_getNRows, fpa_getNPads, fpa_getPlaneExtent, fpa_getRowHeight, fpa_getPadPitch.
  rewrite (pr_nRow a l HR), (pr_nPad a l HR), (pr_rMin a l HR), (pr_rMax a l HR), (pr_phiMin a l HR), (pr_phiMax a l HR), (pr_h a l HR), (pr_p a l HR).
  do 3 (split; [reflexivity|]). split; intros Hz _; field; now apply not_0_IZR.
Qed.
Lemma fpa_clone_rep : forall a l, prep a l -> prep a (fpa_clone l).
Proof.
  intros a l HR. destruct HR. split; cbn; auto.
  - rewrite repeat_length. lia.
  - apply cache_ok_none.
Qed.
Lemma fpa_clone_same : forall a h l, fpa_made a h l ->
  let c := fpa_clone l in
  fpa_getNRows c = fpa_getNRows l /\ fpa_getNPads c = fpa_getNPads l /\
  fpa_getNPadsInRow c = fpa_getNPadsInRow l /\
  fpa_getPlaneExtent c = fpa_getPlaneExtent l /\ fpa_getFixedPadAngle c = fpa_getFixedPadAngle l /\
  (forall i, fpa_getRowHeight c i = fpa_getRowHeight l i) /\
  (forall i, fpa_getPadHeight c i = fpa_getPadHeight l i) /\
  (forall i, fpa_getPadWidth c i = fpa_getPadWidth l i) /\
  (forall i, fpa_getPadPitch c i = fpa_getPadPitch l i) /\
  (forall i, fpa_getPadCenter c i = fpa_getPadCenter l i) /\
  (forall r p, fpa_getPadIndex c r p = fpa_getPadIndex l r p) /\
  (forall r phi, fpa_getNearestPad c r phi = fpa_getNearestPad l r phi) /\
  (forall i, fpa_getRightNeighbour c i = fpa_getRightNeighbour l i) /\
  (forall i, fpa_getLeftNeighbour c i = fpa_getLeftNeighbour l i) /\
  (forall r phi i, fpa_isInsidePad c r phi i = fpa_isInsidePad l r phi i) /\
  (forall r phi, fpa_isInsideAnyPad c r phi = fpa_isInsideAnyPad l r phi) /\
  (forall r phi i, fpa_getDistanceToPad c r phi i = fpa_getDistanceToPad l r phi i) /\
  ((0 <= pa_nPads a)%Z -> forall i, answer (fpa_getPadsInRow c i) = answer (fpa_getPadsInRow l i)).
Proof.
  intros a h l HM c. pose proof (fpa_made_rep _ _ _ HM) as HR.
  do 17 (split; [reflexivity|]). intros Hp i.
  destruct (fpa_pads_rep a l i HR) as [[c1 [E1 _]]|[e1 [E1 L1]]]; [|lia].
  destruct (fpa_pads_rep a c i (fpa_clone_rep a l HR)) as [[c2 [E2 _]]|[e2 [E2 L2]]]; [|lia].
  now rewrite E1, E2.
Qed.

(** ** defects *)
Lemma pdist_zero : forall r a r' a', 0 < r -> 0 <= r' -> pdist r a r' a' = 0 -> r' = r /\ cos (a - a') = 1.
Proof.
  intros r a r' a' Hr Hr' E. rewrite pdist_eq in E. pose proof (COS_bound (a - a')) as B.
  apply sqrt_eq_0 in E; [|apply quad_nonneg; lra].
  assert (E1 : (r - r') * (r - r') + 2 * r * r' * (1 - cos (a - a')) = 0) by lra.
  assert (H1 : 0 <= (r - r') * (r - r')) by (pose proof (Rle_0_sqr (r - r')); unfold Rsqr in *; lra).
  assert (H2 : 0 <= 2 * r * r' * (1 - cos (a - a'))) by (apply Rmult_le_pos; [apply Rmult_le_pos; lra|lra]).
  assert (H3 : (r - r') * (r - r') = 0) by lra. apply Rmult_integral in H3.
  assert (Er : r' = r) by (destruct H3; lra). split; auto. subst r'.
  assert (H4 : 2 * r * r * (1 - cos (a - a')) = 0) by lra. apply Rmult_integral in H4. destruct H4 as [H4|H4]; [|lra].
  assert (0 < r * r) by (apply Rmult_lt_0_compat; lra). lra.
Qed.
(** The distance to a pad ignores that angles repeat: one turn away its own centre is not on it. *)
Lemma disk_distance_turn : forall c h p, 0 < h -> 0 < p < 2 * PI -> 0 <= fst c - h / 2 ->
  0 < disk_distance c h p (fst c) (snd c + 2 * PI).
Proof.
  intros [rc pc] h p Hh Hp H0. cbn [fst snd] in *. unfold disk_distance. cbn [fst snd]. pose proof PI2_pos.
  destruct (Rleb_spec (pc - p / 2) (pc + 2 * PI)); [|lra]. destruct (Rleb_spec (pc + 2 * PI) (pc + p / 2)); [lra|]. cbn [andb].
  assert (Pos : forall e, cos (pc + 2 * PI - e) <> 1 -> 0 < edge_distance rc (pc + 2 * PI) (rc - h / 2) (rc + h / 2) e).
  { intros e He. destruct (edge_distance_is rc (pc + 2 * PI) (rc - h / 2) (rc + h / 2) e ltac:(lra)) as [[r' [Hr' E]] _].
    rewrite <- E. assert (G : 0 <= pdist rc (pc + 2 * PI) r' e) by (unfold pdist, RectSpec.dist2; apply sqrt_pos).
    destruct G as [G|G]; auto. exfalso. apply He. symmetry in G. apply pdist_zero in G; [tauto|lra|lra]. }
  assert (Hcos : cos (p / 2) < 1).
  { destruct (Rlt_le_dec (cos (p / 2)) 1) as [G|G]; auto. exfalso.
    assert (D : cos 0 > cos (p / 2)) by (apply cos_decreasing_1; lra). rewrite cos_0 in D. lra. }
  assert (P1 := Pos (pc - p / 2)). assert (P2 := Pos (pc + p / 2)).
  replace (pc + 2 * PI - (pc - p / 2)) with (p / 2 + 2 * PI) in P1 by lra. rewrite cos_plus, cos_2PI, sin_2PI in P1.
  replace (pc + 2 * PI - (pc + p / 2)) with (- (p / 2) + 2 * PI) in P2 by lra. rewrite cos_plus, cos_2PI, sin_2PI, cos_neg in P2.
  specialize (P1 ltac:(lra)). specialize (P2 ltac:(lra)).
  match goal with |- context[Rltb ?a ?b] => destruct (Rltb_spec a b) end; lra.
Qed.
Lemma fpa_distance_turn : forall a h l, fpa_made a h l -> fpa_sane a -> forall i j, fpa_pad a i j -> 
  fpa_getPadPitch l (code i j) < 2 * PI ->
  let c := fpa_getPadCenter l (code i j) in 0 < fpa_getDistanceToPad l (fst c) (snd c + 2 * PI) (code i j).
Proof.
  intros a h l HM HS i j [Hi Hj] Hp c. pose proof (fpa_made_rep _ _ _ HM) as HR.
  destruct (fpa_edges a i j HS Hi Hj) as [Eh [Ep [Q1 [Q2 [Q3 Q4]]]]].
  unfold fpa_getPadPitch in Hp. unfold fpa_getDistanceToPad. fold c. apply disk_distance_turn; unfold fpa_getRowHeight, fpa_getPadPitch.
  - rewrite (pr_h a l HR). lra.
  - split; [rewrite (pr_p a l HR); lra|exact Hp].
  - unfold c. rewrite (fpa_centre_val a l i j HR HS Hi Hj). cbn [fst]. rewrite (pr_h a l HR). destruct HS as [? _]. lra.
Qed.

(** Outside the wedge the returned pad is not always the nearest. *)
Definition fpa_wedge : fpa_args := mkFpaArgs 1 3 2 0 (PI / 2) 2.
Lemma fpa_wedge_sane : fpa_sane fpa_wedge.
Proof. unfold fpa_sane, fpa_wedge; cbn. pose proof PI_RGT_0. split; [lra|]. split; [lia|]. split; [lra|lia]. Qed.
Lemma fpa_wedge_r : forall i, fpa_r fpa_wedge i = 1 + IZR i.
Proof. intros. unfold fpa_r, fpa_wedge; cbn. lra. Qed.
Lemma fpa_wedge_phi : forall i, fpa_phi fpa_wedge i = IZR i * (PI / 4).
Proof. intros. unfold fpa_phi, fpa_wedge; cbn. lra. Qed.
Lemma fpa_nearest_outside_wrong : exists a l r phi p q,
  fpa_made a [] l /\ fpa_sane a /\ 0 <= r /\ - PI < phi <= PI /\ fpa_pad a 0 0 /\ fpa_pad a 1 0 /\
  p = code 1 0 /\ q = code 0 0 /\
  fpa_getNearestPad l r phi = Ok p /\ fpa_getDistanceToPad l r phi q < fpa_getDistanceToPad l r phi p.
Proof.
  pose proof fpa_wedge_sane as HS. destruct (fpa_exists _ HS) as [l HM]. pose proof (fpa_made_rep _ _ _ HM) as HR.
  pose proof PI_big as PB. pose proof PI_4 as P4.
  assert (Hpad : forall i j, (0 <= i < 2)%Z -> (0 <= j < 2)%Z -> fpa_pad fpa_wedge i j) by (intros; split; cbn; lia).
  assert (D : forall i j, (0 <= i < 2)%Z -> (0 <= j < 2)%Z ->
     is_sector_dist 2 (- PI / 3) (1 + IZR i) (1 + IZR (i + 1)) (IZR j * (PI / 4)) (IZR (j + 1) * (PI / 4))
        (fpa_getDistanceToPad l 2 (- PI / 3) (code i j))).
  { intros i j Hi Hj. rewrite <- !fpa_wedge_r, <- !fpa_wedge_phi.
    apply (fpa_distance fpa_wedge [] l HM HS i j (Hpad i j Hi Hj)); cbn; lra. }
  assert (C3 : cos (- PI / 3) = 1 / 2) by (replace (- PI / 3) with (- (PI / 3)) by lra; rewrite cos_neg; apply cos_PI3).
  assert (Hin : forall p', 0 <= p' <= PI / 2 -> cos (- PI / 3 - p') <= 1 / 2).
  { intros p' Hp'. rewrite <- cos_neg. replace (- (- PI / 3 - p')) with (PI / 3 + p') by lra. rewrite <- cos_PI3.
    destruct Hp' as [[Hp'|<-] Hq]; [|replace (PI / 3 + 0) with (PI / 3) by lra; lra].
    left. apply cos_decreasing_1; lra. }
  (* pad (0,0) is at most sqrt 3 away *)
  assert (D00 : fpa_getDistanceToPad l 2 (- PI / 3) (code 0 0) <= sqrt 3).
  { destruct (D 0%Z 0%Z ltac:(lia) ltac:(lia)) as [_ D0]. specialize (D0 1 0). cbn in D0.
    rewrite pdist_eq in D0. replace (- PI / 3 - 0) with (- PI / 3) in D0 by lra. rewrite C3 in D0.
    replace (2 * 2 + 1 * 1 - 2 * 2 * 1 * (1 / 2)) with 3 in D0 by lra. apply D0; lra. }
  (* pad (1,0) is 2 away *)
  assert (S4 : sqrt 4 = 2) by (replace 4 with (2 * 2) by lra; apply sqrt_square; lra).
  assert (D10 : fpa_getDistanceToPad l 2 (- PI / 3) (code 1 0) = 2).
  { destruct (D 1%Z 0%Z ltac:(lia) ltac:(lia)) as [[r' [p' [Hr' [Hp' E]]]] D1]. apply Rle_antisym.
    - specialize (D1 2 0). cbn in D1. rewrite pdist_eq in D1. replace (- PI / 3 - 0) with (- PI / 3) in D1 by lra. rewrite C3 in D1.
      replace (2 * 2 + 2 * 2 - 2 * 2 * 2 * (1 / 2)) with 4 in D1 by lra. rewrite S4 in D1. apply D1; lra.
    - rewrite <- E, pdist_eq, <- S4 at 1. cbn in Hr', Hp'. specialize (Hin p' ltac:(lra)). apply sqrt_le_1_alt. nra. }
  (* pad (0,1) is more than 2 away *)
  assert (D01 : 2 < fpa_getDistanceToPad l 2 (- PI / 3) (code 0 1)).
  { destruct (D 0%Z 1%Z ltac:(lia) ltac:(lia)) as [[r' [p' [Hr' [Hp' E]]]] _]. rewrite <- E, pdist_eq, <- S4 at 1. cbn in Hr', Hp'.
    assert (cos (- PI / 3 - p') < 0).
    { rewrite <- cos_neg. replace (- (- PI / 3 - p')) with (PI / 3 + p') by lra. apply cos_lt_0; lra. }
    apply sqrt_lt_1_alt. nra. }
  assert (S3 : sqrt 3 < 2) by (rewrite <- S4; apply sqrt_lt_1_alt; lra).
  exists fpa_wedge, l, 2, (- PI / 3), (code 1 0), (code 0 0).
  do 2 (split; [auto|]). split; [lra|]. split; [lra|]. split; [apply Hpad; lia|]. split; [apply Hpad; lia|]. do 2 (split; [reflexivity|]).
  split; [|rewrite D10; lra].
  unfold fpa_getNearestPad. destruct (Rltb_spec 2 0); [lra|]. rewrite (pr_phiMin _ l HR), (pr_phiMax _ l HR). cbn [pa_phiMin pa_phiMax fpa_wedge].
  rewrite wrap_id by lra. destruct (Rleb_spec (- PI / 3) (PI / 2)); [|lra]. destruct (Rleb_spec 0 (- PI / 3)); [lra|]. cbn [andb].
  assert (E1 : fpa_edge_row l 2 (- PI / 3) 0 = Ok 1%Z).
  { unfold fpa_edge_row. assert (A : Rabs (- PI / 3 - 0) = PI / 3) by (rewrite Rabs_left1; lra). rewrite A.
    destruct (Rltb_spec (PI / 2) (PI / 3)); [lra|]. rewrite cos_0, sin_0, C3, (pr_rMin _ l HR), (pr_h _ l HR), (pr_nRow _ l HR). cbn [pa_rMin pa_rMax pa_nRow fpa_wedge].
    destruct (Rltb_spec (2 * (1 / 2 * 1 + sin (- PI / 3) * 0)) 1); [lra|].
    rewrite (floor_div_val _ _ 1); [reflexivity|lra|unfold int_ok; lia|lra]. }
  assert (E2 : fpa_edge_row l 2 (- PI / 3) (PI / 2) = Ok 0%Z).
  { unfold fpa_edge_row. assert (A : Rabs (- PI / 3 - PI / 2) = 5 * PI / 6) by (rewrite Rabs_left1; lra). rewrite A.
    destruct (Rltb_spec (PI / 2) (5 * PI / 6)); [reflexivity|lra]. }
  rewrite E1, E2. cbn [rbind]. rewrite (pr_pads _ l HR). cbn [pa_nPads fpa_wedge]. change (2 - 1)%Z with 1%Z.
  rewrite (fpa_index_val fpa_wedge l 1 0 HR HS), (fpa_index_val fpa_wedge l 0 1 HR HS) by (cbn; lia). cbn [rbind rmap].
  destruct (Rltb_spec (fpa_getDistanceToPad l 2 (- PI / 3) (code 1 0)) (fpa_getDistanceToPad l 2 (- PI / 3) (code 0 1))); [reflexivity|lra].
Qed.
