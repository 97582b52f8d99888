(** Property theorems for C35: pad layouts in files *)
From Coq Require Import ZArith Reals List String Ascii Bool Lia Lra.
From Verif Require Import Base RBase XmlModel XmlSpec NumModel NumSpec NumProofs NumProofs2 HxModel HxSpec HxProofs
  DiskBase FpsModel FpaModel VdModel DiskSpec VdProofs RectModel RectSpec PadXmlModel PadXmlSpec PadXmlProofs PadXmlProofs2.
From Verif Require FpsProofs FpsProofs5 DiskProofs RectProofs.
Import ListNotations.
Open Scope R_scope.

Lemma whole : forall z : Z, (Z.abs z < 10 ^ 10)%Z -> kept (IZR z).
Proof. intros z Z. apply whole_kept. exact Z. Qed.
(** Two pad rows with three pads of size 10 x 20 in a plane 0..100: everything comes back. *)
Definition ex_rows : list rect_call := [CAdd (mkAdd 2 3 10 20 0 0 0)].
Example rect_case : exists l, built 0 100 0 ex_rows l /\ (getRepeatRowCount l <= 1)%Z /\ getNRows l = 2%Z /\
  (forall r, In r (_rows l) -> kept_row r) /\ kept 0 /\ kept 100.
Proof.
  assert (LG : legal_call (CAdd (mkAdd 2 3 10 20 0 0 0))) by (cbn; repeat split; lia || lra).
  pose proof (RectProofs.addRow_rep _ _ _ _ _ _ _ _ (RectProofs.rep_new 0 100 0) LG) as HA. cbv zeta in HA.
  assert (ES : srow_of (mkAdd 2 3 10 20 0 0 0) = mkS 3 10 20 20 0 0).
  { unfold srow_of, asked_height. cbn. destruct (Req_EM_T 0 0); [reflexivity | lra]. }
  rewrite ES in HA.
  assert (WF : width_fits 0 100 (mkS 3 10 20 20 0 0)) by (unfold width_fits; cbn; lra).
  assert (HF : height_fits (mkS 3 10 20 20 0 0)) by (unfold height_fits; cbn; lra).
  destruct HA as [(_&_&l&Hl&HR)|[(_&Hn&_)|(Hn&_)]]; [|tauto|tauto]. exists l.
  split; [split; [constructor; [exact LG | constructor]|]|]; [unfold ex_rows; cbn [do_calls do_call]; rewrite Hl; reflexivity|].
  pose proof (RectProofs.rep_rpt _ _ _ _ _ _ _ HR) as RP. apply Z.ltb_ge in RP. split; [unfold getRepeatRowCount; lia|].
  split; [unfold getNRows; rewrite (RectProofs.rows_len _ _ _ _ _ _ _ HR); reflexivity|].
  split; [|split; apply whole; reflexivity]. rewrite (RectProofs.rep_rows _ _ _ _ _ _ _ HR).
  change (Z.to_nat (a_nRow (mkAdd 2 3 10 20 0 0 0))) with 2%nat. cbn [repeat app RectProofs.rows_of].
  intros r [<-|[<-|[]]]; repeat split; try (apply whole; reflexivity); cbn; lia.
Qed.
(** The same rows repeated three times. *)
Example repeated_case : exists l, built 0 100 0 (ex_rows ++ [CRepeat 3]) l /\ getRepeatRowCount l = 3%Z /\ getNRows l = 6%Z.
Proof.
  destruct rect_case as [l [[HL HD] [HC [HN _]]]].
  pose proof (RectProofs.built_rep _ _ _ _ _ (conj HL HD)) as HR.
  assert (NR : snd (expected 0 100 ex_rows) = false).
  { unfold expected, ex_rows, expect1. cbn [fold_left]. destruct (width_fits_dec _ _ _); [destruct (height_fits_dec _)|]; reflexivity. }
  rewrite NR in HR.
  destruct (RectProofs.repeatRows_rep _ _ _ _ _ _ 3 HR ltac:(lia)) as [l' [H [HR' RC]]].
  exists l'. split; [split|].
  - apply Forall_app. split; [exact HL|]. constructor; [cbn; lia | constructor].
  - unfold ex_rows in *. cbn [app do_calls do_call] in *. destruct (addRow _ _ _ _ _ _ _ _) as [k u|k e|]; try discriminate; injection HD as ->; rewrite H; reflexivity.
  - split; [exact RC|]. unfold getNRows in *. rewrite (RectProofs.rows_len _ _ _ _ _ _ _ HR) in HN.
    rewrite (RectProofs.rows_len _ _ _ _ _ _ _ HR'). change (Z.to_nat (uint32 (3 - 1))) with 2%nat. cbn [repeat List.concat]. rewrite !app_length. cbn [List.length]. lia.
Qed.
(** A wedge of one radian, from radius 10 to 11, with pads of 1 x 1. *)
Definition ex_disk : fps_args := mkFpsArgs 10 11 1 1 0 0 1.
Example disk_case : exists l, fps_made ex_disk [] l /\ fps_all_rows l /\ kept_fps l.
Proof.
  pose proof PI2_3_2. unfold PI2 in *.
  destruct (FpsProofs5.fps_exists ex_disk) as [l [HM HA]]; try (cbn; lra || lia).
  { unfold fps_sane; cbn; lra. }
  exists l. split; [exact HM|]. split; [exact HA|]. pose proof (FpsProofs.fps_made_rep _ _ _ HM) as HR. destruct HR. unfold kept_fps.
  rewrite fr_rMin, fr_rMax, fr_ph, fr_w, fr_g, fr_phi. unfold FpsProofs.fphi, ex_disk. cbn [fa_rMin fa_rMax fa_padHeight fa_padWidth fa_padGap fa_phiMax].
  rewrite DiskProofs.wrap_id by lra. repeat split; apply whole; reflexivity.
Qed.
(** One row with three pads at a pitch of 4 at radius 12. *)
Definition ex_row : vd_args := mkVdArgs 3 4 4 0 0 0 1.
Example versatile_case : exists l rows, vd_made 10 [VAdd ex_row] l /\ vd_story 10 [VAdd ex_row] rows (10 + 1 * 4) /\
  rows = [(10 + 0 * 4, ex_row)] /\ kept 10 /\
  (forall x, In x rows -> is_int (va_nPads (snd x)) /\ kept (va_height (snd x)) /\ normal (vd_pitch x) /\ vd_pitch x = 1 / 3).
Proof.
  pose proof PI2_3_2. unfold PI2 in *. destruct (vd_total 10 [VAdd ex_row] ltac:(lra)) as [l [rows [top [HM [HS _]]]]].
  assert (G : vd_good 10 ex_row) by (unfold vd_good, ex_row; cbn; split; [lia|]; split; [lra|]; split; [lra|]; split; [lra|]; split; [lia|lra]).
  pose proof (vs_add 10 [] [] 10 ex_row (vs_new 10) G) as S. change (Z.to_nat (va_repeat ex_row)) with 1%nat in S. cbn in S.
  exists l, [(10 + 0 * 4, ex_row)]. split; [exact HM|]. split; [exact S|]. split; [reflexivity|]. split; [apply whole; reflexivity|].
  assert (P : vd_pitch (10 + 0 * 4, ex_row) = 1 / 3) by (unfold vd_pitch, vd_rc, ex_row; cbn; field).
  intros x [<-|[]]. split; [unfold is_int; cbn; lia|]. split; [apply (whole 4); reflexivity|]. rewrite P. split; [|reflexivity].
  right. rewrite Rabs_pos_eq by lra. split.
  - apply Rle_trans with (powerRZ 2 (-2)); [apply pow2_le; lia|]. change (powerRZ 2 (-2)) with (/ 2 ^ 2). lra.
  - apply Rle_trans with (powerRZ 2 0); [change (powerRZ 2 0) with 1; lra | apply pow2_le; lia].
Qed.

(** A rectangular layout without repeated rows and with numbers of at most ten digits answers all questions as before after saving and loading, only the number of pads no longer includes refused rows. *)
Theorem C35_rectangular_survives : forall x0 x1 y0 h l, built x0 x1 y0 h l -> (getRepeatRowCount l <= 1)%Z -> kept x0 -> kept x1 -> kept y0 ->
  (forall r, In r (_rows l) -> kept_row r) -> (getNRows l < 2147483648)%Z ->
  exists l', reload rect_toXML rect_fromXML l = Ok l' /\ same_pads l l' /\
    getNPads l' = (getNPads l - refused_pads x0 x1 h)%Z /\ getRepeatRowCount l' = 1%Z.
Proof. exact rect_survives. Qed.
Print Assumptions C35_rectangular_survives.

(** A rectangular layout with repeated rows always loses rows. *)
Theorem C35_rectangular_repeats_refuted : forall x0 x1 y0 h l, built x0 x1 y0 h l -> (1 < getRepeatRowCount l)%Z -> (0 < getNRows l)%Z -> kept x0 -> kept x1 -> kept y0 ->
  (forall r, In r (_rows l) -> kept_row r) -> (getNRows l < 2147483648)%Z ->
  exists l', reload rect_toXML rect_fromXML l = Ok l' /\ (getNRows l' < getNRows l)%Z /\
    _rows l' = firstn (Z.to_nat (getNRows l')) (_rows l) /\ getRepeatRowCount l' = 1%Z.
Proof. exact repeats_lost. Qed.
Print Assumptions C35_rectangular_repeats_refuted.

(** A layout whose pads fill its width may be saved to a file that cannot be loaded. *)
Theorem C35_rectangular_unloadable_refuted : exists l, built 0 1 0 [CAdd (mkAdd 1 6 sixth 1 1 0 0)] l /\ getNRows l = 1%Z /\ getNPads l = 6%Z /\
  kept 0 /\ kept 1 /\ exists e, reload rect_toXML rect_fromXML l = Throw e.
Proof. exact cannot_load. Qed.
Print Assumptions C35_rectangular_unloadable_refuted.

(** A disk of equal pads is loaded as a clone of the saved one if and only if its numbers have at most ten digits. *)
Theorem C35_fixed_size_survives : forall a h l, fps_made a h l ->
  (reload fps_toXML fps_fromXML l = Ok (fps_clone l) <-> kept_fps l).
Proof. exact fps_kept_iff. Qed.
Print Assumptions C35_fixed_size_survives.

(** A full ring, the default, never comes back unchanged. *)
Theorem C35_full_ring_refuted : forall a h l, fps_made a h l -> fa_phiMax a = 2 * PI ->
  reload fps_toXML fps_fromXML l <> Ok (fps_clone l).
Proof. exact full_ring_changed. Qed.
Print Assumptions C35_full_ring_refuted.

(** It may even lose a pad. *)
Theorem C35_pad_lost_refuted : exists a l l', fps_sane a /\ fa_phiMax a = 2 * PI /\ fps_made a [] l /\
  kept (fa_rMin a) /\ kept (fa_rMax a) /\ kept (fa_padHeight a) /\ kept (fa_padWidth a) /\ kept (fa_padGap a) /\
  reload fps_toXML fps_fromXML l = Ok l' /\ fps_getNPads l = 13%Z /\ fps_getNPads l' = 12%Z.
Proof. exact ring_loses_pad. Qed.
Print Assumptions C35_pad_lost_refuted.

(** A disk of equal angles is never loaded. *)
Theorem C35_fixed_angle_refuted : forall l, is_int (fpa_getNRows l) -> reload fpa_toXML fpa_fromXML l = Throw (EParse "nPadsInRow").
Proof. exact fpa_never_loads. Qed.
Print Assumptions C35_fixed_angle_refuted.

(** A disk of different rows is loaded with the same rows, but pad pitches have been divided by the radius once more and pad widths are lost. *)
Theorem C35_versatile_refuted : forall rMin h l rows top, 1001 / 1000 <= rMin -> kept rMin ->
  vd_made rMin h l -> vd_story rMin h rows top ->
  (forall x, In x rows -> is_int (va_nPads (snd x)) /\ kept (va_height (snd x)) /\ normal (vd_pitch x)) ->
  exists l', reload vd_toXML vd_fromXML l = Ok l' /\
    List.length (v_rows l') = List.length (v_rows l) /\ v_e0 l' = v_e0 l /\ v_e1 l' = v_e1 l /\
    forall k r, nth_error (v_rows l) k = Some r -> exists r', nth_error (v_rows l') k = Some r' /\
      v_nPads r' = v_nPads r /\ v_rowHeight r' = v_rowHeight r /\ v_rCentre r' = v_rCentre r /\
      v_padPitch r' = atof (print_double (v_padPitch r)) / v_rCentre r /\ v_padWidth r' = v_padPitch r' /\
      (0 < v_padPitch r -> v_padPitch r' < v_padPitch r).
Proof. exact vd_pitch_shrinks. Qed.
Print Assumptions C35_versatile_refuted.
