(** Nearest pad, neighbours, inside test and clones of FixedPadSizeDiskLayout. *)
From Coq Require Import ZArith List Bool Reals Lra Lia.
From Flocq Require Import Core.Raux.
From Verif Require Import Base RBase BitProofs DiskBase FpsModel DiskSpec DiskProofs FpsProofs.
From Verif Require RectSpec RectProofs5.
Import ListNotations.
Open Scope R_scope.

Lemma fps_size_row : forall a l i np, frep a l -> fps_row_size l i np -> (0 < np)%Z ->
  exists row, (0 <= i)%Z /\ nth_error (f_rows l) (Z.to_nat i) = Some row /\ f_NPad row = np.
Proof.
  intros a l i np HR [l' [v [E Hl]]] Hp.
  destruct (fps_pads_rep a l i HR) as [[c [E' _]]|[e [E' _]]]; rewrite E' in E; [|discriminate].
  injection E as _ Ev. destruct (Z.ltb_spec i 0); [subst v; cbn in Hl; lia|].
  unfold row_list in Ev. destruct (nth_error (f_rows l) (Z.to_nat i)) as [row|]; [|subst v; cbn in Hl; lia].
  exists row. split; [lia|split; auto]. subst v. rewrite map_length, upto_length in Hl. lia.
Qed.
Lemma fps_valid_row : forall a l i j, frep a l -> fps_valid l i j ->
  exists row k, i = Z.of_nat k /\ nth_error (f_rows l) k = Some row /\ (0 <= i < 65536)%Z /\
    (0 <= j < f_NPad row)%Z /\ (0 <= j < 65536)%Z /\ (f_NPad row <= 65536)%Z.
Proof.
  intros a l i j HR [np [Hs [Hj [Hnp Hi]]]].
  destruct (fps_size_row a l i np HR Hs ltac:(lia)) as [row [H0 [Hr En]]].
  exists row, (Z.to_nat i). rewrite Z2Nat.id by lia. split; auto. split; auto. lia.
Qed.
Lemma fps_row_size_of : forall a l k row, frep a l -> nth_error (f_rows l) k = Some row -> (0 <= f_NPad row)%Z ->
  fps_row_size l (Z.of_nat k) (f_NPad row).
Proof.
  intros a l k row HR Hr Hn. unfold fps_row_size.
  destruct (fps_pads_rep a l (Z.of_nat k) HR) as [[c [E _]]|[e [E [row' [E' Hneg]]]]].
  - rewrite E. destruct (Z.ltb_spec (Z.of_nat k) 0); [lia|]. eexists _, _. split; [reflexivity|].
    unfold row_list. rewrite Nat2Z.id, Hr, map_length, upto_length. lia.
  - rewrite nthZ_of_nat, Hr in E'. injection E' as <-. lia.
Qed.

(** values of the getters for a valid pad *)
Lemma fps_centre_val : forall a l k row j, frep a l -> nth_error (f_rows l) k = Some row ->
  (Z.of_nat k < 65536)%Z -> (0 <= j < 65536)%Z -> (0 < f_NPad row)%Z ->
  fps_getPadCenter l (code (Z.of_nat k) j) =
    Ok (frc a (f_nRow l) (Z.of_nat k), (IZR j + 1 / 2) * (fphi a / IZR (f_NPad row))) /\
  fps_getPadPitch l (code (Z.of_nat k) j) = Ok (fphi a / IZR (f_NPad row)).
Proof.
  intros a l k row j HR Hr Hk Hj Hn. destruct (fr_rows a l HR _ _ Hr) as [Hrc [Hpp _]].
  unfold fps_getPadCenter, fps_getPadPitch, sub. rewrite code_row, code_pad by lia.
  rewrite nthZ_of_nat, Hr. cbn [rbind]. destruct (Z.eqb_spec (f_NPad row) 0); [lia|].
  now rewrite Hrc, Hpp.
Qed.

Lemma fps_index_code : forall a l k row j, frep a l -> nth_error (f_rows l) k = Some row ->
  (Z.of_nat k < 65536)%Z -> (0 <= j < 65536)%Z -> (j < f_NPad row)%Z ->
  fps_getPadIndex l (Z.of_nat k) j = Ok (code (Z.of_nat k) j).
Proof.
  intros. rewrite (fps_index_in a l k j row) by auto. now rewrite pack_code by lia.
Qed.

Lemma frep_h_pos : forall a l, frep a l -> fa_rMin a < fa_rMax a -> (0 < f_nRow l)%Z -> 0 < f_rowHeight l.
Proof.
  intros a l HR H Hn. rewrite (fr_h a l HR). unfold fheight. apply Rdiv_lt_0_compat; [lra|]. now apply (IZR_lt 0).
Qed.
Lemma frep_h_total : forall a l, frep a l -> (0 < f_nRow l)%Z ->
  IZR (f_nRow l) * f_rowHeight l = fa_rMax a - fa_rMin a.
Proof.
  intros a l HR Hn. rewrite (fr_h a l HR). unfold fheight. field. apply not_0_IZR. lia.
Qed.

(** Area 1 *)
Definition row_fits (l : fps) (r : R) (k : nat) : Prop :=
  (r < f_rMin l /\ k = 0%nat) \/
  (f_rMin l <= r /\ exists m, int_ok m /\ IZR m * f_rowHeight l <= r - f_rMin l < (IZR m + 1) * f_rowHeight l /\
     Z.of_nat k = (if (f_nRow l <=? m)%Z then f_nRow l - 1 else m)%Z).
Lemma div_cell : forall x h m, 0 < h -> m * h <= x < (m + 1) * h -> m <= x / h < m + 1.
Proof.
  intros x h m Hh [A B]. split.
  - apply Rmult_le_reg_r with h; auto. replace (x / h * h) with x by (field; lra). lra.
  - apply Rmult_lt_reg_r with h; auto. replace (x / h * h) with x by (field; lra). lra.
Qed.
Lemma fps_area1_val : forall a l r phi k row j, frep a l -> 0 < f_rowHeight l -> 0 < fphi a ->
  nth_error (f_rows l) k = Some row -> (Z.of_nat k < 65536)%Z -> (0 < f_NPad row <= 65536)%Z ->
  row_fits l r k -> (0 <= j < f_NPad row)%Z ->
  IZR j * (fphi a / IZR (f_NPad row)) <= phi ->
  (phi < (IZR j + 1) * (fphi a / IZR (f_NPad row)) \/ (j = f_NPad row - 1)%Z /\ phi <= fphi a) ->
  fps_area1 l r phi = Ok (code (Z.of_nat k) j).
Proof.
  intros a l r phi k row j HR Hh Hphi Hr Hk Hn Hrow Hj Hlo Hhi.
  destruct (fr_rows a l HR _ _ Hr) as [Hrc [Hpp _]].
  assert (Hklen : (k < List.length (f_rows l))%nat) by (apply nth_error_Some; congruence).
  pose proof (fr_len a l HR) as Hlen.
  assert (Hpos : 0 < IZR (f_NPad row)) by (apply (IZR_lt 0); lia).
  set (p := fphi a / IZR (f_NPad row)) in *.
  assert (Hp : 0 < p) by (apply Rdiv_lt_0_compat; lra).
  assert (Hpt : IZR (f_NPad row) * p = fphi a) by (unfold p; field; lra).
  unfold fps_area1.
  assert (E1 : rbind (if Rltb r (f_rMin l) then Ok 0%Z else floor_div (r - f_rMin l) (f_rowHeight l))
     (fun rowNum => Ok (if (f_nRow l <=? rowNum)%Z then (f_nRow l - 1)%Z else rowNum)) = Ok (Z.of_nat k)).
  { destruct Hrow as [[Hlt ->]|[Hge [m [Hm [Hcell Ek]]]]].
    - destruct (Rltb_spec r (f_rMin l)); [|lra]. cbn [rbind]. destruct (Z.leb_spec (f_nRow l) 0); [lia|reflexivity].
    - destruct (Rltb_spec r (f_rMin l)); [lra|]. rewrite (floor_div_val _ _ m); [|lra|auto|apply div_cell; auto].
      cbn [rbind]. now rewrite Ek. }
  destruct (if Rltb r (f_rMin l) then Ok 0%Z else floor_div (r - f_rMin l) (f_rowHeight l)) as [z| |];
    cbn [rbind] in E1 |- *; try discriminate.
  injection E1 as E1. rewrite E1. unfold sub. rewrite nthZ_of_nat, Hr. cbn [rbind].
  destruct (Z.eqb_spec (f_NPad row) 0); [lia|]. rewrite Hpp. fold p.
  assert (Ep : rbind (floor_div phi p) (fun padNum => Ok (if (f_NPad row <=? padNum)%Z then (f_NPad row - 1)%Z else padNum)) = Ok j).
  { destruct (Rlt_le_dec phi ((IZR j + 1) * p)) as [C|C].
    - rewrite (floor_div_val _ _ j); [|lra|unfold int_ok; lia|apply div_cell; lra].
      cbn [rbind]. destruct (Z.leb_spec (f_NPad row) j); [lia|reflexivity].
    - destruct Hhi as [?|[Ej Hle]]; [lra|].
      assert (Eq : phi = IZR (f_NPad row) * p).
      { rewrite Ej, minus_IZR in C. lra. }
      rewrite (floor_div_val _ _ (f_NPad row)); [|lra|unfold int_ok; lia|].
      + cbn [rbind]. destruct (Z.leb_spec (f_NPad row) (f_NPad row)); [now f_equal|lia].
      + rewrite Eq. replace (IZR (f_NPad row) * p / p) with (IZR (f_NPad row)) by (field; lra). lra. }
  destruct (floor_div phi p) as [z'| |]; cbn [rbind] in Ep |- *; try discriminate.
  injection Ep as Ep. rewrite Ep. eapply fps_index_code; eauto; lia.
Qed.

Lemma fphi_sane : forall a, fps_sane a -> fphi a = fa_phiMax a.
Proof. intros a [_ [_ H]]. apply fphi_id. pose proof PI_RGT_0; lra. Qed.

(** the angle getNearestPad works with *)
Definition fps_turn (l : fps) (phi : R) : R :=
  if fps_full l then wrap_down (2 * PI) (wrap_up 0 phi) else wrap_down (2 * PI) (wrap_up (- 2 * PI) phi).
Lemma fps_nearest_area1 : forall l r phi, 1 / 1000000 <= r -> 0 <= fps_turn l phi <= f_phiMax l ->
  fps_getNearestPad l r phi = fps_area1 l r (fps_turn l phi).
Proof.
  intros l r phi Hr Ht. unfold fps_getNearestPad.
  destruct (Rltb_spec (Rabs r) (1 / 1000000)) as [C|C]; [rewrite Rabs_pos_eq in C; lra|].
  fold (fps_turn l phi).
  destruct (Rltb_spec 0 r); [|lra]. destruct (Rleb_spec 0 (fps_turn l phi)); [|lra].
  destruct (Rleb_spec (fps_turn l phi) (f_phiMax l)); [|lra]. reflexivity.
Qed.
Lemma fps_turn_id : forall l phi, 0 <= phi <= 2 * PI -> fps_turn l phi = phi.
Proof.
  intros. unfold fps_turn. pose proof PI2_pos. destruct (fps_full l); apply wrap_id; lra.
Qed.
Lemma fps_full_2PI : forall l, f_phiMax l = 2 * PI -> fps_full l = true.
Proof.
  intros l E. unfold fps_full. rewrite E, Rminus_diag_eq by auto. rewrite Rabs_R0. apply Rltb_true. lra.
Qed.

Lemma fps_nearest_centre : forall a h l, fps_made a h l -> fps_sane a -> forall i j, fps_valid l i j ->
  exists c, fps_getPadCenter l (code i j) = Ok c /\
    (1 / 1000000 <= fst c -> fps_getNearestPad l (fst c) (snd c) = Ok (code i j)).
Proof.
  intros a h l HM HS i j HV. pose proof (fps_made_rep _ _ _ HM) as HR.
  destruct (fps_valid_row a l i j HR HV) as [row [k [-> [Hr [Hi [Hj [Hj2 Hn]]]]]]].
  destruct (fps_centre_val a l k row j HR Hr ltac:(lia) Hj2 ltac:(lia)) as [Ec _].
  rewrite Ec. eexists. split; [reflexivity|]. cbn [fst snd]. intros H6.
  pose proof (fphi_sane a HS) as Ephi. destruct HS as [Hrr [Hwg Hph]].
  assert (Hklen : (k < List.length (f_rows l))%nat) by (apply nth_error_Some; congruence).
  pose proof (fr_len a l HR) as Hlen.
  pose proof (frep_h_pos a l HR ltac:(lra) ltac:(lia)) as Hh.
  assert (Hpos : 0 < IZR (f_NPad row)) by (apply (IZR_lt 0); lia).
  assert (Hp : 0 < fphi a / IZR (f_NPad row)) by (apply Rdiv_lt_0_compat; lra).
  assert (Hpt : IZR (f_NPad row) * (fphi a / IZR (f_NPad row)) = fphi a) by (field; lra).
  assert (Hj0 : 0 <= IZR j) by (apply (IZR_le 0); lia).
  assert (Hj1 : IZR j + 1 <= IZR (f_NPad row)) by (rewrite <- (plus_IZR j 1); apply IZR_le; lia).
  set (p := fphi a / IZR (f_NPad row)) in *.
  assert (Hin : 0 <= (IZR j + 1 / 2) * p <= fphi a) by nra.
  assert (Et : fps_turn l ((IZR j + 1 / 2) * p) = (IZR j + 1 / 2) * p) by (apply fps_turn_id; lra).
  rewrite fps_nearest_area1; [|auto|rewrite Et, (fr_phi a l HR); auto]. rewrite Et.
  eapply fps_area1_val; eauto; try lia; try lra; try (fold p; nra).
  - right. unfold frc. rewrite <- (fr_h a l HR), (fr_rMin a l HR).
    assert (0 <= IZR (Z.of_nat k)) by (apply (IZR_le 0); lia).
    split; [nra|]. exists (Z.of_nat k). split; [unfold int_ok; lia|]. split; [split; nra|].
    destruct (Z.leb_spec (f_nRow l) (Z.of_nat k)); [lia|reflexivity].
Qed.

(** which cell *)
Lemma phi_cell : forall n Phi phi, (0 < n)%Z -> 0 < Phi -> 0 <= phi <= Phi ->
  exists j, (0 <= j < n)%Z /\ IZR j * (Phi / IZR n) <= phi <= (IZR j + 1) * (Phi / IZR n) /\
    (phi < (IZR j + 1) * (Phi / IZR n) \/ (j = n - 1)%Z /\ phi <= Phi).
Proof.
  intros n Phi phi Hn HP Hphi. assert (Hpos : 0 < IZR n) by (apply (IZR_lt 0); lia).
  set (p := Phi / IZR n). assert (Hp : 0 < p) by (apply Rdiv_lt_0_compat; lra).
  assert (Hpt : IZR n * p = Phi) by (unfold p; field; lra).
  destruct (Rlt_le_dec phi Phi) as [C|C].
  - destruct (floor_cell (phi / p) n Hn) as [j [Hj B]].
    { split; [apply Rmult_le_pos; [lra|left; apply Rinv_0_lt_compat; lra]|].
      apply Rmult_lt_reg_r with p; auto. replace (phi / p * p) with phi by (field; lra). lra. }
    exists j. split; auto.
    assert (E : phi = phi / p * p) by (field; lra).
    assert (IZR j * p <= phi / p * p) by (apply Rmult_le_compat_r; lra).
    assert (phi / p * p < (IZR j + 1) * p) by (apply Rmult_lt_compat_r; lra). lra.
  - exists (n - 1)%Z. rewrite minus_IZR. split; [lia|]. split; [split; lra|]. right; split; auto; lra.
Qed.

Lemma fps_nearest_cell : forall a h l, fps_made a h l -> fps_sane a -> fps_all_rows l ->
  forall r phi, 1 / 1000000 <= r -> r < fa_rMin a + 2147483648 * fps_getRowHeight l 0 ->
  (0 <= phi <= fa_phiMax a \/ fa_phiMax a = 2 * PI) ->
  exists i j np phi', fps_getNearestPad l r phi = Ok (code i j) /\
    fps_row_size l i np /\ (0 <= j < np)%Z /\
    same_angle phi' phi /\ 0 <= phi' <= fa_phiMax a /\ (0 <= phi <= fa_phiMax a -> phi' = phi) /\
    IZR j * (fa_phiMax a / IZR np) <= phi' <= (IZR j + 1) * (fa_phiMax a / IZR np) /\
    (r < fa_rMin a -> i = 0%Z) /\ (fa_rMax a < r -> i = (fps_getNRows l - 1)%Z) /\
    (fa_rMin a <= r <= fa_rMax a ->
       fa_rMin a + IZR i * fps_getRowHeight l i <= r <= fa_rMin a + (IZR i + 1) * fps_getRowHeight l i).
Proof.
  intros a h l HM HS [Hn Hall] r phi Hr6 Hrmax Hphi. pose proof (fps_made_rep _ _ _ HM) as HR.
  pose proof (fphi_sane a HS) as Ephi. destruct HS as [Hrr [Hwg Hph]].
  pose proof (fr_len a l HR) as Hlen. unfold fps_getNRows in Hn, Hall |- *. rewrite Hlen in *.
  pose proof (frep_h_pos a l HR ltac:(lra) ltac:(lia)) as Hh.
  pose proof (frep_h_total a l HR ltac:(lia)) as Htot.
  unfold fps_getRowHeight in *.
  (* angle *)
  assert (Hturn : 0 <= fps_turn l phi <= fa_phiMax a).
  { destruct Hphi as [Hphi|Hphi].
    - rewrite fps_turn_id; lra.
    - unfold fps_turn. rewrite fps_full_2PI by (now rewrite (fr_phi a l HR), Ephi). rewrite Hphi. apply wrap_window. lra. }
  assert (Hsame : same_angle (fps_turn l phi) phi) by (unfold fps_turn; destruct (fps_full l); apply wrap_same).
  assert (Hid : 0 <= phi <= fa_phiMax a -> fps_turn l phi = phi) by (intros; apply fps_turn_id; lra).
  set (phi' := fps_turn l phi) in *.
  (* row *)
  assert (HK : exists k, (0 <= Z.of_nat k < f_nRow l)%Z /\ row_fits l r k /\
     (r < fa_rMin a -> k = 0%nat) /\ (fa_rMax a < r -> Z.of_nat k = (f_nRow l - 1)%Z) /\
     (fa_rMin a <= r <= fa_rMax a ->
       fa_rMin a + IZR (Z.of_nat k) * f_rowHeight l <= r <= fa_rMin a + (IZR (Z.of_nat k) + 1) * f_rowHeight l)).
  { destruct (Rlt_le_dec r (fa_rMin a)) as [C|C].
    - exists 0%nat. split; [lia|]. split; [left; rewrite (fr_rMin a l HR); auto|]. split; auto. split; intros; lra.
    - set (x := (r - fa_rMin a) / f_rowHeight l).
      assert (Ex : r - fa_rMin a = x * f_rowHeight l) by (unfold x; field; lra).
      assert (Hx0 : 0 <= x).
      { apply Rmult_le_pos; [lra|]. left; apply Rinv_0_lt_compat; lra. }
      pose proof (Zfloor_lb x) as L. pose proof (Zfloor_ub x) as U.
      assert (Hm0 : (0 <= Zfloor x)%Z) by (apply (Zfloor_lub 0); simpl; lra).
      assert (Hm1 : (Zfloor x < 2147483648)%Z).
      { apply lt_IZR. apply Rle_lt_trans with x; auto. apply Rmult_lt_reg_r with (f_rowHeight l); auto. lra. }
      assert (Hcell : IZR (Zfloor x) * f_rowHeight l <= r - f_rMin l < (IZR (Zfloor x) + 1) * f_rowHeight l).
      { rewrite (fr_rMin a l HR), Ex. split; [apply Rmult_le_compat_r|apply Rmult_lt_compat_r]; lra. }
      exists (Z.to_nat (if (f_nRow l <=? Zfloor x)%Z then f_nRow l - 1 else Zfloor x)%Z).
      rewrite Z2Nat.id by (destruct (Z.leb_spec (f_nRow l) (Zfloor x)); lia).
      split; [destruct (Z.leb_spec (f_nRow l) (Zfloor x)); lia|].
      split.
      { right. rewrite (fr_rMin a l HR) at 1. split; auto. exists (Zfloor x). split; [unfold int_ok; lia|]. split; auto.
        rewrite Z2Nat.id; auto. destruct (Z.leb_spec (f_nRow l) (Zfloor x)); lia. }
      split; [intros; lra|]. rewrite (fr_rMin a l HR) in Hcell.
      destruct (Z.leb_spec (f_nRow l) (Zfloor x)) as [D|D].
      + split; [auto|]. intros [_ Hle]. rewrite minus_IZR.
        apply IZR_le in D. assert (IZR (f_nRow l) * f_rowHeight l <= IZR (Zfloor x) * f_rowHeight l)
          by (apply Rmult_le_compat_r; lra). lra.
      + split.
        * intros Hgt. exfalso. assert (IZR (Zfloor x) + 1 <= IZR (f_nRow l)) by (rewrite <- (plus_IZR _ 1); apply IZR_le; lia).
          assert ((IZR (Zfloor x) + 1) * f_rowHeight l <= IZR (f_nRow l) * f_rowHeight l) by (apply Rmult_le_compat_r; lra). lra.
        * intros _. lra. }
  destruct HK as [k [Hk [Hfit [K1 [K2 K3]]]]].
  destruct (Hall (Z.of_nat k) ltac:(lia)) as [np [Hsz Hnp]].
  destruct (fps_size_row a l _ _ HR Hsz ltac:(lia)) as [row [_ [Hrow En]]]. rewrite Nat2Z.id in Hrow.
  destruct (phi_cell np (fa_phiMax a) phi' ltac:(lia) ltac:(lra) Hturn) as [j [Hj [Hc Hc2]]].
  exists (Z.of_nat k), j, np, phi'.
  split.
  { rewrite fps_nearest_area1; [|auto|rewrite (fr_phi a l HR), Ephi; exact Hturn]. fold phi'.
    eapply fps_area1_val; eauto; rewrite ?Ephi, ?En; try lia; try lra; auto. }
  split; [auto|]. split; [auto|]. split; [auto|]. split; [auto|]. split; [auto|]. split; [auto|].
  split; [intros; now rewrite K1|]. split; [auto|]. auto.
Qed.

(** no pad is nearer than the returned one *)
Lemma fps_nearest_minimal : forall a h l, fps_made a h l -> fps_sane a -> fps_all_rows l ->
  forall r phi, 1 / 1000000 <= r -> r < fa_rMin a + 2147483648 * fps_getRowHeight l 0 ->
  0 <= phi <= fa_phiMax a ->
  exists i d, fps_getNearestPad l r phi = Ok i /\ fps_getDistanceToPad l r phi i = Ok d /\
    forall i' j', fps_valid l i' j' -> exists d', fps_getDistanceToPad l r phi (code i' j') = Ok d' /\ d <= d'.
Proof.
  intros a h l HM HS HA r phi Hr6 Hrmax Hphi. pose proof (fps_made_rep _ _ _ HM) as HR.
  destruct (fps_nearest_cell a h l HM HS HA r phi Hr6 Hrmax (or_introl Hphi))
    as [i [j [np [phi' [EN [Hsz [Hj [_ [_ [Hid [Hc [K1 [K2 K3]]]]]]]]]]]]].
  rewrite (Hid Hphi) in Hc.
  pose proof (fphi_sane a HS) as Ephi. destruct HS as [Hrr [Hwg Hph]]. destruct HA as [Hn Hall].
  pose proof (fr_len a l HR) as Hlen. unfold fps_getNRows in Hn, Hall, K2. rewrite Hlen in *.
  pose proof (frep_h_pos a l HR ltac:(lra) ltac:(lia)) as Hh.
  pose proof (frep_h_total a l HR ltac:(lia)) as Htot.
  assert (HD : forall k row j0, nth_error (f_rows l) k = Some row -> (0 <= j0 < f_NPad row)%Z -> (f_NPad row <= 65536)%Z ->
    fps_getDistanceToPad l r phi (code (Z.of_nat k) j0) =
      Ok (disk_distance (fa_rMin a + (IZR (Z.of_nat k) + 1 / 2) * f_rowHeight l, (IZR j0 + 1 / 2) * (fa_phiMax a / IZR (f_NPad row)))
           (f_rowHeight l) (fa_phiMax a / IZR (f_NPad row)) r phi) /\
    is_sector_dist r phi (fa_rMin a + IZR (Z.of_nat k) * f_rowHeight l) (fa_rMin a + (IZR (Z.of_nat k) + 1) * f_rowHeight l)
      (IZR j0 * (fa_phiMax a / IZR (f_NPad row))) ((IZR j0 + 1) * (fa_phiMax a / IZR (f_NPad row)))
      (disk_distance (fa_rMin a + (IZR (Z.of_nat k) + 1 / 2) * f_rowHeight l, (IZR j0 + 1 / 2) * (fa_phiMax a / IZR (f_NPad row)))
           (f_rowHeight l) (fa_phiMax a / IZR (f_NPad row)) r phi) /\
    fa_rMin a <= fa_rMin a + IZR (Z.of_nat k) * f_rowHeight l /\ fa_rMin a + (IZR (Z.of_nat k) + 1) * f_rowHeight l <= fa_rMax a).
  { intros k row j0 Hk Hj0 Hnp.
    assert (Hklen : (k < List.length (f_rows l))%nat) by (apply nth_error_Some; congruence).
    destruct (fps_centre_val a l k row j0 HR Hk ltac:(lia) ltac:(lia) ltac:(lia)) as [Ec Ep].
    unfold fps_getDistanceToPad. rewrite Ec, Ep. cbn [rbind rmap]. unfold frc, fps_getRowHeight.
    rewrite <- (fr_h a l HR), Ephi. split; [reflexivity|].
    set (p := fa_phiMax a / IZR (f_NPad row)).
    assert (Hpos : 0 < IZR (f_NPad row)) by (apply (IZR_lt 0); lia).
    assert (Hp : 0 < p) by (apply Rdiv_lt_0_compat; lra).
    assert (Hpt : IZR (f_NPad row) * p = fa_phiMax a) by (unfold p; field; lra).
    assert (A0 : 0 <= IZR j0) by (apply (IZR_le 0); lia).
    assert (A1 : IZR j0 + 1 <= IZR (f_NPad row)) by (rewrite <- (plus_IZR j0 1); apply IZR_le; lia).
    assert (B0 : 0 <= IZR (Z.of_nat k)) by (apply (IZR_le 0); lia).
    assert (B1 : IZR (Z.of_nat k) + 1 <= IZR (f_nRow l)) by (rewrite <- (plus_IZR _ 1); apply IZR_le; lia).
    assert (A2 : 0 <= IZR j0 * p) by nra. assert (A3 : (IZR j0 + 1) * p <= fa_phiMax a) by nra.
    assert (B2 : 0 <= IZR (Z.of_nat k) * f_rowHeight l) by nra.
    assert (B3 : (IZR (Z.of_nat k) + 1) * f_rowHeight l <= fa_rMax a - fa_rMin a) by nra.
    split; [|lra].
    pose proof (disk_distance_euclid (fa_rMin a + (IZR (Z.of_nat k) + 1 / 2) * f_rowHeight l, (IZR j0 + 1 / 2) * p)
        (f_rowHeight l) p r phi) as D. cbn [fst snd] in D.
    replace (fa_rMin a + IZR (Z.of_nat k) * f_rowHeight l) with (fa_rMin a + (IZR (Z.of_nat k) + 1 / 2) * f_rowHeight l - f_rowHeight l / 2) by lra.
    replace (fa_rMin a + (IZR (Z.of_nat k) + 1) * f_rowHeight l) with (fa_rMin a + (IZR (Z.of_nat k) + 1 / 2) * f_rowHeight l + f_rowHeight l / 2) by lra.
    replace (IZR j0 * p) with ((IZR j0 + 1 / 2) * p - p / 2) by lra.
    replace ((IZR j0 + 1) * p) with ((IZR j0 + 1 / 2) * p + p / 2) by lra.
    apply D; lra. }
  destruct (fps_size_row a l _ _ HR Hsz ltac:(lia)) as [row [Hi0 [Hrow En]]]. subst np.
  assert (Hilen : (Z.to_nat i < List.length (f_rows l))%nat) by (apply nth_error_Some; congruence).
  destruct (Hall i ltac:(lia)) as [np' [Hsz' Hnp']].
  destruct (fps_size_row a l _ _ HR Hsz' ltac:(lia)) as [row' [_ [Hrow' En']]].
  rewrite Hrow in Hrow'. injection Hrow' as <-. subst np'.
  assert (Ei : i = Z.of_nat (Z.to_nat i)) by lia.
  destruct (HD _ _ j Hrow Hj ltac:(lia)) as [Ed [[_ Hmin] [R0 R1]]]. rewrite <- Ei in *.
  eexists _, _. split; [exact EN|]. split; [exact Ed|].
  intros i' j' HV. destruct (fps_valid_row a l i' j' HR HV) as [row2 [k2 [-> [Hr2 [Hi2 [Hj2 [Hj3 Hn2]]]]]]].
  destruct (HD _ _ j' Hr2 Hj2 ltac:(lia)) as [Ed2 [[[r' [p' [Hr' [Hp' Ea]]]] _] [S0 S1]]].
  eexists. split; [exact Ed2|]. rewrite <- Ea.
  (* the radius clamped to the plane lies in the chosen pad *)
  set (rc := Rmax (fa_rMin a) (Rmin (fa_rMax a) r)).
  assert (Hrc : fa_rMin a + IZR i * f_rowHeight l <= rc <= fa_rMin a + (IZR i + 1) * f_rowHeight l).
  { unfold rc. destruct (Rlt_le_dec r (fa_rMin a)) as [C|C]; [|destruct (Rlt_le_dec (fa_rMax a) r) as [D|D]].
    - rewrite K1 by auto. rewrite Rmin_right, Rmax_left by lra. lra.
    - rewrite K2 by auto. rewrite Rmin_left, Rmax_right by lra. rewrite minus_IZR. lra.
    - rewrite Rmin_right, Rmax_right by lra. apply K3; lra. }
  apply Rle_trans with (pdist r phi rc phi).
  - apply Hmin; auto.
  - rewrite pdist_same. apply Rle_trans with (Rabs (r - r')).
    + unfold rc. unfold Rmax, Rmin. destruct (Rle_dec (fa_rMax a) r); destruct (Rle_dec (fa_rMin a) _);
        unfold Rabs; repeat destruct (Rcase_abs _); lra.
    + rewrite <- (pdist_same r r' phi), !pdist_eq. replace (phi - phi) with 0 by lra. rewrite cos_0.
      apply sqrt_le_1; try apply quad_nonneg; try lra; try apply COS_bound.
      pose proof (COS_bound (phi - p')). assert (0 <= r * r') by nra. nra.
Qed.
