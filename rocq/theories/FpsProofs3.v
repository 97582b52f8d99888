(** Index, neighbours, inside test, lists and clones of FixedPadSizeDiskLayout. *)
From Coq Require Import ZArith List String Bool Reals Lra Lia.
From Flocq Require Import Core.Raux.
From Verif Require Import Base RBase BitProofs DiskBase FpsModel DiskSpec DiskProofs FpsProofs FpsProofs2.
From Verif Require RectSpec RectProofs5.
Import ListNotations.
Open Scope R_scope.

Lemma fps_index_lossless : forall a h l, fps_made a h l -> forall i j, fps_valid l i j ->
  fps_getPadIndex l i j = Ok (code i j) /\
  disk_rowNumber (code i j) = i /\ disk_padNumber (code i j) = j /\
  forall i' j', fps_valid l i' j' -> fps_getPadIndex l i' j' = Ok (code i j) -> i' = i /\ j' = j.
Proof.
  intros a h l HM i j HV. pose proof (fps_made_rep _ _ _ HM) as HR.
  destruct (fps_valid_row a l i j HR HV) as [row [k [-> [Hr [Hi [Hj [Hj2 Hn]]]]]]].
  split; [eapply fps_index_code; eauto; lia|]. split; [apply code_row; lia|]. split; [apply code_pad; lia|].
  intros i' j' HV' E. destruct (fps_valid_row a l i' j' HR HV') as [row' [k' [-> [Hr' [Hi' [Hj' [Hj2' Hn']]]]]]].
  rewrite (fps_index_code a l k' row' j') in E by (auto; lia).
  assert (E' : code (Z.of_nat k') j' = code (Z.of_nat k) j) by congruence.
  apply RectProofs5.code_inj in E'; lia.
Qed.
Lemma fps_index_negative : forall a h l, fps_made a h l -> forall i j j', fps_valid l i j' -> (-65536 <= j < 0)%Z ->
  exists p, fps_getPadIndex l i j = Ok p /\ disk_rowNumber p = i /\ disk_padNumber p = (j + 65536)%Z.
Proof.
  intros a h l HM i j j' HV Hneg. pose proof (fps_made_rep _ _ _ HM) as HR.
  destruct (fps_valid_row a l i j' HR HV) as [row [k [-> [Hr [Hi [Hj [Hj2 Hn]]]]]]].
  exists (code (Z.of_nat k) (j + 65536)). rewrite (fps_index_in a l k j row) by (auto; lia).
  split; [|split; [apply code_row|apply code_pad]; lia].
  f_equal. rewrite <- pack_code by lia. unfold disk_pack. do 2 f_equal.
  change 65535%Z with (Z.ones 16). rewrite !(Z.land_comm (Z.ones 16)), !Z.land_ones by lia.
  change (2 ^ 16)%Z with 65536%Z. rewrite <- (Z_mod_plus_full j 1 65536). f_equal.
Qed.

(** no rows at all: [size()-1] is the largest unsigned number, the check passes and the access is
    out of bounds *)
Lemma fps_index_no_rows : forall a h l, fps_made a h l -> fps_getNRows l = 0%Z ->
  forall i j, (0 <= i < 2147483648)%Z -> fps_getPadIndex l i j = UB.
Proof.
  intros a h l HM E i j Hi. unfold fps_getNRows in E. unfold fps_getPadIndex.
  rewrite uint32_small by lia. rewrite E. change ((0 - 1) mod 18446744073709551616)%Z with 18446744073709551615%Z.
  destruct (Z.ltb_spec 18446744073709551615 i); [lia|]. unfold sub, nthZ.
  destruct (Z.ltb_spec i 0); [lia|]. destruct (nth_error (f_rows l) (Z.to_nat i)) eqn:N; [|reflexivity].
  assert (Z.to_nat i < List.length (f_rows l))%nat by (apply nth_error_Some; congruence). lia.
Qed.
Lemma fps_index_refused : forall a h l, fps_made a h l -> forall i j, (0 <= i < 2147483648)%Z -> (0 < fps_getNRows l)%Z ->
  (fps_getNRows l <= i \/ exists np, fps_row_size l i np /\ (0 < np <= j))%Z ->
  exists e, fps_getPadIndex l i j = Throw e.
Proof.
  intros a h l HM i j Hi Hpos HC. pose proof (fps_made_rep _ _ _ HM) as HR. unfold fps_getPadIndex, fps_getNRows in *.
  pose proof (frep_small a l HR). pose proof (fr_len a l HR). pose proof (fr_n a l HR).
  rewrite uint32_small by lia. rewrite Z.mod_small by lia.
  destruct (Z.ltb_spec (Z.of_nat (List.length (f_rows l)) - 1) i); [eauto|].
  destruct HC as [HC|[np [HC Hnp]]]; [lia|].
  destruct (fps_size_row a l i np HR HC ltac:(lia)) as [row [_ [Hr En]]].
  unfold sub, nthZ. destruct (Z.ltb_spec i 0); [lia|]. rewrite Hr. cbn [rbind].
  destruct (Z.ltb_spec (f_NPad row - 1) j); [eauto|lia].
Qed.

(** ** neighbours *)
Lemma fps_full_iff : forall l, fps_full l = true <-> Rabs (f_phiMax l - 2 * PI) < 1 / 1000000.
Proof. intros. apply Rltb_true. Qed.

Lemma fps_neighbours : forall a h l, fps_made a h l -> fps_sane a -> forall i j np,
  fps_row_size l i np -> (0 <= j < np)%Z -> (np <= 65536)%Z -> (i < 65536)%Z ->
  let full := Rabs (fa_phiMax a - 2 * PI) < 1 / 1000000 in
  ((j < np - 1)%Z -> fps_getLeftNeighbour l (code i j) = Ok (code i (j + 1))) /\
  (full -> fps_getLeftNeighbour l (code i (np - 1)) = Ok (code i 0)) /\
  (~ full -> exists e, fps_getLeftNeighbour l (code i (np - 1)) = Throw e) /\
  ((0 < j)%Z -> fps_getRightNeighbour l (code i j) = Ok (code i (j - 1))) /\
  (full -> fps_getRightNeighbour l (code i 0) = Ok (code i (np - 1))) /\
  (~ full -> exists e, fps_getRightNeighbour l (code i 0) = Throw e).
Proof.
  intros a h l HM HS i j np Hsz Hj Hnp Hi full. pose proof (fps_made_rep _ _ _ HM) as HR.
  destruct (fps_size_row a l i np HR Hsz ltac:(lia)) as [row [Hi0 [Hr En]]].
  assert (Hat : at_ (f_rows l) i = Ok row).
  { unfold at_, nthZ. destruct (Z.ltb_spec i 0); [lia|]. now rewrite Hr. }
  assert (Hfull : fps_full l = true <-> full).
  { rewrite fps_full_iff, (fr_phi a l HR), (fphi_sane a HS). reflexivity. }
  assert (Hidx : forall m, (0 <= m < np)%Z -> fps_getPadIndex l i m = Ok (code i m)).
  { intros m Hm. rewrite <- (Z2Nat.id i) by lia. eapply fps_index_code; eauto; lia. }
  assert (HL : forall m, (0 <= m < np)%Z -> fps_getLeftNeighbour l (code i m) =
     if (np - 1 <? m + 1)%Z then if fps_full l then fps_getPadIndex l i 0 else Throw (EGear "FixedPadSizeDiskLayout::getLeftNeighbour: no left neighbour pad !")
     else fps_getPadIndex l i (m + 1)).
  { intros m Hm. unfold fps_getLeftNeighbour. rewrite code_row, code_pad by lia. rewrite Hat. cbn [rbind]. now rewrite En. }
  assert (HRN : forall m, (0 <= m < np)%Z -> fps_getRightNeighbour l (code i m) =
     if (m - 1 <? 0)%Z then if fps_full l then fps_getPadIndex l i (np - 1) else Throw (EGear "FixedPadSizeDiskLayout::getRightNeighbour: no right neighbour pad !")
     else fps_getPadIndex l i (m - 1)).
  { intros m Hm. unfold fps_getRightNeighbour. rewrite code_row, code_pad by lia. rewrite Hat. cbn [rbind]. now rewrite En. }
  split; [|split; [|split; [|split; [|split]]]].
  - intros H. rewrite HL by lia. destruct (Z.ltb_spec (np - 1) (j + 1)); [lia|]. apply Hidx; lia.
  - intros F. apply Hfull in F. rewrite HL by lia. destruct (Z.ltb_spec (np - 1) (np - 1 + 1)); [|lia]. rewrite F. apply Hidx; lia.
  - intros F. rewrite HL by lia. destruct (Z.ltb_spec (np - 1) (np - 1 + 1)); [|lia].
    destruct (fps_full l); [exfalso; apply F; now apply Hfull|]. eauto.
  - intros H. rewrite HRN by lia. destruct (Z.ltb_spec (j - 1) 0); [lia|]. apply Hidx; lia.
  - intros F. apply Hfull in F. rewrite HRN by lia. destruct (Z.ltb_spec (0 - 1) 0); [|lia]. rewrite F. apply Hidx; lia.
  - intros F. rewrite HRN by lia. destruct (Z.ltb_spec (0 - 1) 0); [|lia].
    destruct (fps_full l); [exfalso; apply F; now apply Hfull|]. eauto.
Qed.

(** ** geometry of a valid pad *)
Lemma fps_pad_geometry : forall a h l, fps_made a h l -> fps_sane a -> forall i j, fps_valid l i j ->
  exists np, fps_row_size l i np /\ (0 <= j < np)%Z /\
  let h := fps_getRowHeight l i in
  let rc := fa_rMin a + (IZR i + 1 / 2) * h in
  let p := fa_phiMax a / IZR np in
  fps_getPadCenter l (code i j) = Ok (rc, (IZR j + 1 / 2) * p) /\
  fps_getPadPitch l (code i j) = Ok p /\ fps_getPadWidth l (code i j) = Ok (fa_padWidth a / rc) /\
  fps_getPadHeight l (code i j) = fa_padHeight a /\
  0 < h /\ 0 < p /\ fa_rMin a <= rc - h / 2 /\ rc + h / 2 <= fa_rMax a /\
  0 <= IZR j * p /\ (IZR j + 1) * p <= fa_phiMax a /\ 0 < fa_padWidth a / rc /\ 0 < fa_padHeight a /\
  (0 <= fa_padGap a -> fa_padWidth a / rc <= p).
Proof.
  intros a h0 l HM HS i j HV. pose proof (fps_made_rep _ _ _ HM) as HR.
  destruct (fps_valid_row a l i j HR HV) as [row [k [-> [Hr [Hi [Hj [Hj2 Hn]]]]]]].
  exists (f_NPad row). split; [eapply fps_row_size_of; eauto; lia|]. split; [auto|]. unfold fps_getRowHeight.
  pose proof (fphi_sane a HS) as Ephi. destruct HS as [Hrr [Hwg Hph]].
  destruct (fr_rows a l HR _ _ Hr) as [Hrc [Hpp Hnp]].
  destruct (fps_centre_val a l k row j HR Hr ltac:(lia) ltac:(lia) ltac:(lia)) as [Ec Ep].
  assert (Hklen : (k < List.length (f_rows l))%nat) by (apply nth_error_Some; congruence).
  pose proof (fr_len a l HR) as Hlen. rewrite Ephi in *.
  pose proof (frep_h_pos a l HR ltac:(lra) ltac:(lia)) as Hh.
  pose proof (frep_h_total a l HR ltac:(lia)) as Htot.
  unfold frc in *. rewrite <- (fr_h a l HR) in *.
  set (rc := fa_rMin a + (IZR (Z.of_nat k) + 1 / 2) * f_rowHeight l) in *.
  assert (Hpos : 0 < IZR (f_NPad row)) by (apply (IZR_lt 0); lia).
  set (p := fa_phiMax a / IZR (f_NPad row)) in *.
  assert (Hp : 0 < p) by (apply Rdiv_lt_0_compat; lra).
  assert (Hpt : IZR (f_NPad row) * p = fa_phiMax a) by (unfold p; field; lra).
  assert (A0 : 0 <= IZR j) by (apply (IZR_le 0); lia).
  assert (A1 : IZR j + 1 <= IZR (f_NPad row)) by (rewrite <- (plus_IZR j 1); apply IZR_le; lia).
  assert (B0 : 0 <= IZR (Z.of_nat k)) by (apply (IZR_le 0); lia).
  assert (B1 : IZR (Z.of_nat k) + 1 <= IZR (f_nRow l)) by (rewrite <- (plus_IZR _ 1); apply IZR_le; lia).
  assert (Hrcpos : 0 < rc) by (unfold rc; nra).
  assert (Hw := fr_pos a l HR).
  split; [exact Ec|]. split; [exact Ep|]. split.
  { unfold fps_getPadWidth. rewrite code_row by lia. rewrite nthZ_of_nat, Hr, Hrc.
    destruct (Reqb_spec rc 0); [lra|]. now rewrite (fr_w a l HR). }
  split; [exact (fr_ph a l HR)|]. split; [auto|]. split; [auto|].
  split; [unfold rc; nra|]. split; [unfold rc; nra|]. split; [nra|]. split; [nra|].
  split; [apply Rdiv_lt_0_compat; lra|]. split; [lra|]. intros Hg.
  apply floor_div_inv in Hnp. destruct Hnp as [_ [_ [Hlo _]]].
  assert (IZR (f_NPad row) * (fa_padWidth a + fa_padGap a) <= rc * fa_phiMax a).
  { apply Rmult_le_compat_r with (r := fa_padWidth a + fa_padGap a) in Hlo; [|lra].
    replace (rc * fa_phiMax a / (fa_padWidth a + fa_padGap a) * (fa_padWidth a + fa_padGap a)) with (rc * fa_phiMax a) in Hlo by (field; lra). lra. }
  apply Rmult_le_reg_r with rc; auto. replace (fa_padWidth a / rc * rc) with (fa_padWidth a) by (field; lra).
  apply Rmult_le_reg_l with (IZR (f_NPad row)); auto. rewrite <- Rmult_assoc, Hpt. nra.
Qed.

Lemma fps_inside_exact : forall a h l, fps_made a h l -> fps_sane a -> forall i j, fps_valid l i j ->
  forall r phi, exists b phi' rc pc w, fps_isInsidePad l r phi (code i j) = Ok b /\
    fps_getPadCenter l (code i j) = Ok (rc, pc) /\ fps_getPadWidth l (code i j) = Ok w /\
    same_angle phi' phi /\ 0 <= phi' <= 2 * PI /\ (0 <= phi <= 2 * PI -> phi' = phi) /\
    (b = true <-> fa_rMin a <= r <= fa_rMax a /\ Rabs (r - rc) <= fa_padHeight a / 2 /\ Rabs (phi' - pc) <= w / 2).
Proof.
  intros a h l HM HS i j HV r phi. pose proof (fps_made_rep _ _ _ HM) as HR.
  destruct (fps_pad_geometry a h l HM HS i j HV) as [np [_ [_ [Ec [Ep [Ew _]]]]]].
  set (phi' := wrap_down (2 * PI) (wrap_up 0 phi)).
  set (rc := fa_rMin a + (IZR i + 1 / 2) * fps_getRowHeight l i) in *.
  set (w := fa_padWidth a / rc) in *.
  eexists _, phi', _, _, w.
  split.
  { unfold fps_isInsidePad. rewrite (fr_rMin a l HR), (fr_rMax a l HR), (fr_ph a l HR). rewrite Ec, Ew. cbn [rbind rmap fst snd].
    instantiate (1 := if (Rltb r (fa_rMin a) || Rltb (fa_rMax a) r)%bool then false else
        (Rleb (Rabs (r - rc)) (1 / 2 * fa_padHeight a) && Rleb (Rabs (phi' - (IZR j + 1 / 2) * (fa_phiMax a / IZR np))) (1 / 2 * w))%bool).
    destruct (Rltb r (fa_rMin a) || Rltb (fa_rMax a) r)%bool; reflexivity. }
  split; [exact Ec|]. split; [exact Ew|]. split; [apply wrap_same|]. split; [apply wrap_window; lra|].
  split; [intros; apply wrap_id; lra|].
  repeat rcase; cbn [orb andb]; split; intros; try discriminate; try reflexivity; try lra.
Qed.

Lemma fps_centre_inside : forall a h l, fps_made a h l -> fps_sane a -> forall i j, fps_valid l i j ->
  exists c, fps_getPadCenter l (code i j) = Ok c /\ fps_isInsidePad l (fst c) (snd c) (code i j) = Ok true /\
    fps_getDistanceToPad l (fst c) (snd c) (code i j) = Ok 0.
Proof.
  intros a h l HM HS i j HV.
  destruct (fps_pad_geometry a h l HM HS i j HV) as [np [_ [_ [Ec [Ep [Ew [_ [Hh [Hp [Q1 [Q2 [Q3 [Q4 [Q5 [Q6 _]]]]]]]]]]]]]]].
  eexists. split; [exact Ec|]. cbn [fst snd].
  destruct (fps_inside_exact a h l HM HS i j HV (fa_rMin a + (IZR i + 1 / 2) * fps_getRowHeight l i) ((IZR j + 1 / 2) * (fa_phiMax a / IZR np)))
    as [b [phi' [rc [pc [w [Ei [Ec' [Ew' [_ [_ [Hid Hb]]]]]]]]]]].
  rewrite Ec in Ec'. injection Ec' as <- <-. rewrite Ew in Ew'. injection Ew' as <-.
  destruct HS as [Hrr [Hwg Hph]].
  rewrite Hid in Hb by nra. split.
  - rewrite Ei. f_equal. apply Hb. rewrite !Rminus_diag_eq, !Rabs_R0 by reflexivity. lra.
  - unfold fps_getDistanceToPad. rewrite Ec, Ep. cbn [rbind rmap]. f_equal.
    apply (disk_distance_centre (_, _)); lra || (unfold fps_getRowHeight in *; lra).
Qed.

(** The distance, for every point up to a turn away from the pad. *)
Lemma fps_distance : forall a h l, fps_made a h l -> fps_sane a -> forall i j, fps_valid l i j ->
  forall r phi, 0 <= r -> - (2 * PI - fa_phiMax a) <= phi <= 2 * PI ->
  exists np d, fps_row_size l i np /\ fps_getDistanceToPad l r phi (code i j) = Ok d /\
    is_sector_dist r phi (fa_rMin a + IZR i * fps_getRowHeight l i) (fa_rMin a + (IZR i + 1) * fps_getRowHeight l i)
      (IZR j * (fa_phiMax a / IZR np)) ((IZR j + 1) * (fa_phiMax a / IZR np)) d.
Proof.
  intros a h l HM HS i j HV r phi Hr Hphi.
  destruct (fps_pad_geometry a h l HM HS i j HV) as [np [Hs [_ [Ec [Ep [Ew [_ [Hh [Hp [Q1 [Q2 [Q3 [Q4 [Q5 [Q6 _]]]]]]]]]]]]]]].
  exists np. eexists. split; [exact Hs|]. split.
  { unfold fps_getDistanceToPad. rewrite Ec, Ep. cbn [rbind rmap]. reflexivity. }
  change (fps_getRowHeight l (disk_rowNumber (code i j))) with (fps_getRowHeight l i).
  set (p := fa_phiMax a / IZR np) in *. set (H := fps_getRowHeight l i) in *. destruct HS as [Hrr [Hwg Hph]].
  pose proof (disk_distance_euclid (fa_rMin a + (IZR i + 1 / 2) * H, (IZR j + 1 / 2) * p) H p r phi) as D. cbn [fst snd] in D.
  replace (fa_rMin a + IZR i * H) with (fa_rMin a + (IZR i + 1 / 2) * H - H / 2) by lra.
  replace (fa_rMin a + (IZR i + 1) * H) with (fa_rMin a + (IZR i + 1 / 2) * H + H / 2) by lra.
  replace (IZR j * p) with ((IZR j + 1 / 2) * p - p / 2) by lra.
  replace ((IZR j + 1) * p) with ((IZR j + 1 / 2) * p + p / 2) by lra.
  apply D; lra.
Qed.

(** ** lists and clones *)
Lemma fps_asked_app : forall h l i, fps_asked l (h ++ [i]) =
  match fps_asked l h with Some l' => fps_asked l' [i] | None => None end.
Proof.
  induction h as [|r t IH]; intros l i; [reflexivity|]. change ((r :: t) ++ [i]) with (r :: (t ++ [i])).
  cbn [fps_asked]. destruct (fps_getPadsInRow l r); [apply IH|apply IH|reflexivity].
Qed.

Lemma fps_npad_nonneg : forall a l k row, frep a l -> fps_sane a -> nth_error (f_rows l) k = Some row -> (0 <= f_NPad row)%Z.
Proof.
  intros a l k row HR HS Hr. pose proof (fphi_sane a HS) as Ephi. destruct HS as [Hrr [Hwg Hph]].
  destruct (fr_rows a l HR _ _ Hr) as [_ [_ Hnp]]. apply floor_div_inv in Hnp. destruct Hnp as [_ [_ [_ Hhi]]].
  assert (Hklen : (k < List.length (f_rows l))%nat) by (apply nth_error_Some; congruence).
  pose proof (fr_len a l HR) as Hlen.
  pose proof (frep_h_pos a l HR ltac:(lra) ltac:(lia)) as Hh. unfold frc in Hhi. rewrite <- (fr_h a l HR), Ephi in Hhi.
  assert (B0 : 0 <= IZR (Z.of_nat k)) by (apply (IZR_le 0); lia).
  assert (0 <= (fa_rMin a + (IZR (Z.of_nat k) + 1 / 2) * f_rowHeight l) * fa_phiMax a / (fa_padWidth a + fa_padGap a)).
  { assert (0 <= IZR (Z.of_nat k) * f_rowHeight l) by (apply Rmult_le_pos; lra).
    apply Rmult_le_pos; [apply Rmult_le_pos; lra|]. left. apply Rinv_0_lt_compat. lra. }
  assert (IZR (-1) < IZR (f_NPad row)) by (simpl; lra). apply lt_IZR in H0. lia.
Qed.
Lemma fps_pads_list : forall a h l, fps_made a h l -> fps_sane a ->
  forall i, exists l' v, fps_getPadsInRow l i = SOk l' v /\ fps_made a (h ++ [i]) l' /\
    ((i < 0 \/ fps_getNRows l <= i)%Z -> v = []) /\
    ((0 <= i < fps_getNRows l)%Z ->
       (forall j, (0 <= j < Z.of_nat (List.length v))%Z ->
          exists p, nth_error v (Z.to_nat j) = Some p /\ fps_getPadIndex l i j = Ok p) /\
       (forall j, (Z.of_nat (List.length v) <= j)%Z -> exists e, fps_getPadIndex l i j = Throw e)).
Proof.
  intros a h l HM HS i. pose proof (fps_made_rep _ _ _ HM) as HR.
  destruct (fps_pads_rep a l i HR) as [[c [E HR']]|[e [E [row [Hr Hn]]]]].
  2:{ exfalso. unfold nthZ in Hr. destruct (Z.ltb_spec i 0); [discriminate|]. pose proof (fps_npad_nonneg a l _ _ HR HS Hr). lia. }
  eexists _, _. split; [exact E|]. split.
  { destruct HM as [l0 [H0 H1]]. exists l0. split; auto. rewrite fps_asked_app, H1. cbn [fps_asked]. now rewrite E. }
  unfold fps_getNRows. split.
  - intros Hi. destruct (Z.ltb_spec i 0); auto. unfold row_list.
    destruct (nth_error (f_rows l) (Z.to_nat i)) eqn:N; auto.
    assert (Z.to_nat i < List.length (f_rows l))%nat by (apply nth_error_Some; congruence). lia.
  - intros Hi. destruct (Z.ltb_spec i 0); [lia|]. unfold row_list.
    destruct (nth_error (f_rows l) (Z.to_nat i)) as [row|] eqn:N.
    2:{ apply nth_error_None in N. lia. }
    pose proof (fps_npad_nonneg a l _ _ HR HS N) as Hn. rewrite map_length, upto_length, Z2Nat.id by auto.
    rewrite Z2Nat.id by lia. split; intros j Hj.
    + exists (disk_pack i j). split.
      * apply (map_nth_error (disk_pack i)). unfold RectSpec.upto.
        rewrite <- (Z2Nat.id j) at 2 by lia. apply map_nth_error. rewrite nth_error_nth' with (d := 0%nat) by (rewrite seq_length; lia).
        f_equal. rewrite seq_nth by lia. lia.
      * rewrite <- (Z2Nat.id i) by lia. eapply fps_index_in; eauto. lia.
    + unfold fps_getPadIndex. pose proof (frep_small a l HR). pose proof (fr_len a l HR).
      rewrite uint32_small by lia. rewrite Z.mod_small by lia.
      destruct (Z.ltb_spec (Z.of_nat (List.length (f_rows l)) - 1) i); [eauto|].
      unfold sub, nthZ. destruct (Z.ltb_spec i 0); [lia|]. rewrite N. cbn [rbind].
      destruct (Z.ltb_spec (f_NPad row - 1) j); [eauto|lia].
Qed.

Lemma fps_clone_rep : forall a l, frep a l -> frep a (fps_clone l).
Proof.
  intros a l HR. destruct HR as [H1 H2 H3 H4 H5 H6 H7 H8 H9 H10 H11 H12 H13 H14 H15]. split; cbn; auto.
  - rewrite repeat_length. lia.
  - apply cache_ok_none.
Qed.
Lemma fps_clone_same : forall a h l, fps_made a h l ->
  let c := fps_clone l in
  fps_getNRows c = fps_getNRows l /\ fps_getNPads c = fps_getNPads l /\
  fps_getPlaneExtent c = fps_getPlaneExtent l /\ fps_getPadGap c = fps_getPadGap l /\
  fps_getFixedPadWidth c = fps_getFixedPadWidth l /\
  (forall i, fps_getRowHeight c i = fps_getRowHeight l i) /\
  (forall i, fps_getPadHeight c i = fps_getPadHeight l i) /\
  (forall i, fps_getPadWidth c i = fps_getPadWidth l i) /\
  (forall i, fps_getPadPitch c i = fps_getPadPitch l i) /\
  (forall i, fps_getPadCenter c i = fps_getPadCenter l i) /\
  (forall r p, fps_getPadIndex c r p = fps_getPadIndex l r p) /\
  (forall r phi, fps_getNearestPad c r phi = fps_getNearestPad l r phi) /\
  (forall i, fps_getRightNeighbour c i = fps_getRightNeighbour l i) /\
  (forall i, fps_getLeftNeighbour c i = fps_getLeftNeighbour l i) /\
  (forall r phi i, fps_isInsidePad c r phi i = fps_isInsidePad l r phi i) /\
  (forall r phi, fps_isInsideAnyPad c r phi = fps_isInsideAnyPad l r phi) /\
  (forall r phi i, fps_getDistanceToPad c r phi i = fps_getDistanceToPad l r phi i) /\
  (fps_sane a -> forall i, answer (fps_getPadsInRow c i) = answer (fps_getPadsInRow l i)).
Proof.
  intros a h l HM c. pose proof (fps_made_rep _ _ _ HM) as HR.
  do 17 (split; [reflexivity|]). intros HS i.
  assert (HN : forall row, nthZ (f_rows l) i = Some row -> (f_NPad row < 0)%Z -> False).
  { intros row Hr Hn. unfold nthZ in Hr. destruct (Z.ltb_spec i 0); [discriminate|].
    pose proof (fps_npad_nonneg a l _ _ HR HS Hr). lia. }
  destruct (fps_pads_rep a l i HR) as [[c1 [E1 _]]|[e1 [E1 [row1 [N1 L1]]]]]; [|exfalso; eauto].
  destruct (fps_pads_rep a c i (fps_clone_rep a l HR)) as [[c2 [E2 _]]|[e2 [E2 [row2 [N2 L2]]]]];
    [now rewrite E1, E2|exfalso; eauto].
Qed.
