(** Existence of FixedPadSizeDiskLayout objects and overlapping pads. *)
From Coq Require Import ZArith List String Bool Reals Lra Lia.
From Flocq Require Import Core.Raux.
From Verif Require Import Base RBase BitProofs DiskBase FpsModel DiskSpec DiskProofs FpsProofs FpsProofs2 FpsProofs3 FpsProofs4.
Import ListNotations.
Open Scope R_scope.

Lemma fps_rows_exist : forall a n k i, (0 <= i)%Z ->
  (forall m, (i <= m < i + Z.of_nat k)%Z -> exists np, floor_div (frc a n m * fphi a) (fa_padWidth a + fa_padGap a) = Ok np) ->
  exists rows, fps_rows k i (fa_rMin a) (fheight a n) (fphi a) (fa_padWidth a) (fa_padGap a) = Ok rows.
Proof.
  intros a n k; induction k as [|k IH]; intros i Hi H; cbn [fps_rows]; [eauto|].
  replace (fa_rMin a + IZR i * fheight a n + 1 / 2 * fheight a n) with (frc a n i) by (unfold frc; lra).
  destruct (H i ltac:(lia)) as [np E]. rewrite E. cbn [rbind].
  destruct (IH (i + 1)%Z ltac:(lia)) as [rows Er]. { intros m Hm. apply H. lia. }
  rewrite Er. cbn [rmap]. eauto.
Qed.

Lemma fps_exists : forall a, fps_sane a -> 0 < fa_padHeight a -> 0 < fa_padWidth a -> (fa_nRow a <= 0)%Z ->
  fa_padHeight a <= fa_rMax a + 1 / 100 - fa_rMin a < 65537 * fa_padHeight a ->
  fa_padWidth a + fa_padGap a <= fa_rMin a * fa_phiMax a ->
  fa_rMax a * fa_phiMax a < 65537 * (fa_padWidth a + fa_padGap a) ->
  exists l, fps_made a [] l /\ fps_all_rows l.
Proof.
  intros a HS Hph Hpw Hnr Hrows Hlo Hhi. pose proof (fphi_sane a HS) as Ephi. assert (HS' := HS).
  destruct HS' as [Hrr [Hwg Hphi]].
  set (X := (fa_rMax a + 1 / 100 - fa_rMin a) / fa_padHeight a).
  assert (EX : X * fa_padHeight a = fa_rMax a + 1 / 100 - fa_rMin a) by (unfold X; field; lra).
  assert (HX : 1 <= X < 65537) by (split; [apply Rmult_le_reg_r with (fa_padHeight a)|apply Rmult_lt_reg_r with (fa_padHeight a)]; lra).
  set (n := Zfloor X). assert (Hn : (1 <= n < 65537)%Z).
  { split; [apply Zfloor_lub; simpl; lra|]. apply lt_IZR. apply Rle_lt_trans with X; [apply Zfloor_lb|simpl; lra]. }
  assert (En : to_int X = Ok n).
  { apply to_int_ok; [|unfold int_ok; lia]. rewrite Ztrunc_floor; [reflexivity|lra]. }
  assert (Hnpos : 0 < IZR n) by (apply (IZR_lt 0); lia).
  assert (Hh : 0 < fheight a n) by (unfold fheight; apply Rdiv_lt_0_compat; lra).
  assert (Ht : IZR n * fheight a n = fa_rMax a - fa_rMin a) by (unfold fheight; field; lra).
  assert (HB : forall m, (0 <= m < n)%Z -> exists np, floor_div (frc a n m * fphi a) (fa_padWidth a + fa_padGap a) = Ok np /\ (0 < np <= 65536)%Z).
  { intros m Hm. rewrite Ephi. assert (0 <= IZR m) by (apply (IZR_le 0); lia).
    assert (IZR m + 1 <= IZR n) by (rewrite <- (plus_IZR m 1); apply IZR_le; lia).
    assert (Hrc : fa_rMin a <= frc a n m <= fa_rMax a) by (unfold frc; split; nra).
    set (Y := frc a n m * fa_phiMax a / (fa_padWidth a + fa_padGap a)).
    assert (EY : Y * (fa_padWidth a + fa_padGap a) = frc a n m * fa_phiMax a) by (unfold Y; field; lra).
    assert (HY : 1 <= Y < 65537).
    { split; [apply Rmult_le_reg_r with (fa_padWidth a + fa_padGap a)|apply Rmult_lt_reg_r with (fa_padWidth a + fa_padGap a)]; auto; rewrite EY; nra. }
    assert (1 <= Zfloor Y < 65537)%Z.
    { split; [apply Zfloor_lub; simpl; lra|]. apply lt_IZR. apply Rle_lt_trans with Y; [apply Zfloor_lb|simpl; lra]. }
    exists (Zfloor Y). split; [|lia]. apply floor_div_val; [lra|unfold int_ok; lia|]. split; [apply Zfloor_lb|apply Zfloor_ub]. }
  destruct (fps_rows_exist a n (Z.to_nat n) 0 ltac:(lia)) as [rows Er].
  { intros m Hm. destruct (HB m ltac:(lia)) as [np [E _]]. eauto. }
  assert (EM : exists l, new_fps (fa_rMin a) (fa_rMax a) (fa_padHeight a) (fa_padWidth a) (fa_nRow a) (fa_padGap a) (fa_phiMax a) = Ok l /\ f_nRow l = n).
  { unfold new_fps. destruct (Rleb_spec (fa_padHeight a) 0); [lra|]. destruct (Rleb_spec (fa_padWidth a) 0); [lra|]. cbn [orb].
    fold (fphi a). fold X. rewrite En. cbn [rbind]. destruct (Z.ltb_spec n (fa_nRow a)); [lia|]. destruct (Z.ltb_spec 0 (fa_nRow a)); [lia|].
    destruct (Z.ltb_spec n 0); [lia|]. change ((fa_rMax a - fa_rMin a) / IZR n) with (fheight a n). rewrite Er. cbn [rmap].
    eexists. split; [reflexivity|reflexivity]. }
  destruct EM as [l [EM Enr]]. exists l.
  assert (HM : fps_made a [] l) by (exists l; auto). split; auto.
  pose proof (fps_made_rep _ _ _ HM) as HR. pose proof (fr_len a l HR) as Hlen. unfold fps_all_rows, fps_getNRows. rewrite Hlen, Enr.
  split; [lia|]. intros i Hi.
  destruct (nth_error (f_rows l) (Z.to_nat i)) as [row|] eqn:N; [|apply nth_error_None in N; lia].
  destruct (fr_rows a l HR _ _ N) as [_ [_ E]]. rewrite Z2Nat.id, Enr in E by lia.
  destruct (HB i Hi) as [np [E' Hnp]]. assert (En2 : f_NPad row = np) by congruence.
  exists np. split; [|auto]. rewrite <- (Z2Nat.id i), <- En2 by lia. apply (fps_row_size_of a l); auto. lia.
Qed.

(** two rows of height 0.9975 with pads of height 1 *)
Definition fps_over : fps_args := mkFpsArgs 10 (11995 / 1000) 1 1 0 0 1.
Lemma fps_over_sane : fps_sane fps_over.
Proof. unfold fps_sane, fps_over; cbn. pose proof PI_big. lra. Qed.
Lemma fps_over_exists : exists l, fps_made fps_over [] l /\ fps_all_rows l.
Proof. apply fps_exists; [apply fps_over_sane|..]; cbn; lra || lia. Qed.
(** a full circle *)
Definition fps_round : fps_args := mkFpsArgs 10 12 1 1 0 (1 / 10) (2 * PI).
Lemma fps_round_sane : fps_sane fps_round.
Proof. unfold fps_sane, fps_round; cbn. pose proof PI_big. lra. Qed.
Lemma fps_round_exists : exists l, fps_made fps_round [] l /\ fps_all_rows l.
Proof. pose proof PI_big. pose proof PI_4. apply fps_exists; [apply fps_round_sane|..]; cbn; lra || lia. Qed.
Lemma fps_all_valid : forall l i, fps_all_rows l -> (0 <= i < fps_getNRows l)%Z -> fps_valid l i 0.
Proof. intros l i [Hn H] Hi. destruct (H i Hi) as [np [Hs Hp]]. exists np. split; auto. lia. Qed.

Lemma fps_pads_overlap : exists a l r phi, fps_made a [] l /\ fps_sane a /\ fps_all_rows l /\ 0 <= fa_padGap a /\
  fps_valid l 0 0 /\ fps_valid l 1 0 /\
  fps_isInsidePad l r phi (code 0 0) = Ok true /\ fps_isInsidePad l r phi (code 1 0) = Ok true.
Proof.
  destruct fps_over_exists as [l [HM HA]]. exists fps_over, l, (10998 / 1000), (5 / 100).
  pose proof fps_over_sane as HS. pose proof (fps_made_rep _ _ _ HM) as HR. pose proof (fphi_sane _ HS) as Ephi.
  assert (En : f_nRow l = 2%Z).
  { destruct (fr_choice _ l HR) as [nr [E ->]].
    assert (E2 : to_int ((fa_rMax fps_over + 1 / 100 - fa_rMin fps_over) / fa_padHeight fps_over) = Ok 2%Z).
    { apply to_int_ok; [|unfold int_ok; lia]. rewrite Ztrunc_floor by (cbn; lra). apply RectProofs4.Zfloor_val. cbn. lra. }
    rewrite E2 in E. injection E as <-. reflexivity. }
  assert (HN : fps_getNRows l = 2%Z) by (unfold fps_getNRows; rewrite (fr_len _ l HR); exact En).
  assert (V0 : fps_valid l 0 0) by (apply fps_all_valid; auto; lia).
  assert (V1 : fps_valid l 1 0) by (apply fps_all_valid; auto; lia).
  split; [auto|]. split; [auto|]. split; [auto|]. split; [cbn; lra|]. split; [auto|]. split; [auto|].
  assert (Hrow : forall i np, (i = 0 /\ np = 10 \/ i = 1 /\ np = 11)%Z -> exists row, nth_error (f_rows l) (Z.to_nat i) = Some row /\ f_NPad row = np).
  { intros i np Hi. destruct (nth_error (f_rows l) (Z.to_nat i)) as [row|] eqn:N.
    2:{ apply nth_error_None in N. pose proof (fr_len _ l HR). lia. }
    exists row. split; auto. destruct (fr_rows _ l HR _ _ N) as [_ [_ E]]. rewrite Ephi, En, Z2Nat.id in E by lia.
    assert (E2 : floor_div (frc fps_over 2 i * fa_phiMax fps_over) (fa_padWidth fps_over + fa_padGap fps_over) = Ok np).
    { apply floor_div_val; [cbn; lra|unfold int_ok; lia|]. unfold frc, fheight. cbn. destruct Hi as [[-> ->]|[-> ->]]; lra. }
    rewrite E2 in E. now injection E. }
  assert (HI : forall i np, (i = 0 /\ np = 10 \/ i = 1 /\ np = 11)%Z -> fps_valid l i 0 ->
     fps_isInsidePad l (10998 / 1000) (5 / 100) (code i 0) = Ok true).
  { intros i np Hi HV. destruct (Hrow i np Hi) as [row [N Enp]].
    destruct (fps_centre_val fps_over l (Z.to_nat i) row 0 HR N ltac:(lia) ltac:(lia) ltac:(lia)) as [Ec _].
    rewrite Z2Nat.id in Ec by lia. rewrite Ephi, En, Enp in Ec.
    destruct (fps_inside_exact _ _ l HM HS i 0 HV (10998 / 1000) (5 / 100)) as [b [phi' [rc [pc [w [Eb [Ec' [Ew [_ [_ [Hid Hb]]]]]]]]]]].
    rewrite Ec in Ec'. injection Ec' as <- <-.
    destruct (fps_pad_geometry _ _ l HM HS i 0 HV) as [np2 [_ [_ [_ [_ [Ew' _]]]]]]. rewrite Ew' in Ew. injection Ew as <-.
    unfold fps_getRowHeight in Hb. rewrite (fr_h _ l HR), En in Hb.
    rewrite Eb. f_equal. apply Hb. rewrite Hid by (pose proof PI_big; lra). unfold frc, fheight. cbn.
    destruct Hi as [[-> ->]|[-> ->]]; unfold Rabs; repeat destruct (Rcase_abs _); lra. }
  split; [apply (HI 0 10)%Z|apply (HI 1 11)%Z]; auto.
Qed.
