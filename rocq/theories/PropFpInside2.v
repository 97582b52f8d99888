(** C103: isInsidePad for pads of fixed size, in the arithmetic of the machine. *)
From Coq Require Import ZArith Reals Lia Lra Psatz List Bool.
From Flocq Require Import Core.
From Verif Require Import Base RBase DiskBase NumModel NumSpec FpModel FpProofs FpRectCases DiskSpec DiskProofs FpsModel FpZpProofs FpFpaModel FpFpaProofs FpFpsModel FpFpsSpec FpFpsProofs PropFpFps FpInside2Model FpInside2Spec FpInside2Proofs.
Import ListNotations.
Open Scope R_scope.

(** isInsidePad(r,phi,pad) ends at once with a verdict; it is positive for every point of the ring that is on the pad by a millionth of its cell ... *)
Theorem C103_inside : forall a l i np j r phi fuel, ring a -> fps_made_d a l -> rows_ok a l -> sizes_ok a l -> (0 <= i < 65536)%Z -> row_has l i np -> (0 <= j < np)%Z -> (np <= 65536)%Z ->
  0 <= phi <= two_pi -> fa_rMin a <= r <= fa_rMax a -> on_pad_area (- / 1000000) a l i np j r phi -> fps_isInsidePad_d fuel l r phi (code i j) = Some (Ok true).
Proof. intros a l i np j r phi fuel RG MD RO SO I RH J NP P R1 O. destruct (inside_fps a l i np j r phi fuel RG MD RO SO I RH J NP P) as (b & E & _ & B). now rewrite E, (B R1 O). Qed.
Print Assumptions C103_inside.
(** ... negative for every point that is off the pad by a millionth ... *)
Theorem C103_outside : forall a l i np j r phi fuel, ring a -> fps_made_d a l -> rows_ok a l -> sizes_ok a l -> (0 <= i < 65536)%Z -> row_has l i np -> (0 <= j < np)%Z -> (np <= 65536)%Z ->
  0 <= phi <= two_pi -> ~ (fa_rMin a <= r <= fa_rMax a /\ on_pad_area (/ 1000000) a l i np j r phi) -> fps_isInsidePad_d fuel l r phi (code i j) = Some (Ok false).
Proof. intros a l i np j r phi fuel RG MD RO SO I RH J NP P O. destruct (inside_fps a l i np j r phi fuel RG MD RO SO I RH J NP P) as ([|] & E & B & _); [destruct (O (B eq_refl))|exact E]. Qed.
Print Assumptions C103_outside.
(** ... and positive for the centre that getPadCenter reports, however small the pad is. *)
Theorem C103_centre : forall a l i np j fuel, ring a -> fps_made_d a l -> rows_ok a l -> sizes_ok a l -> (0 <= i < 65536)%Z -> row_has l i np -> (0 <= j < np)%Z -> (np <= 65536)%Z ->
  exists c, fps_getPadCenter_d l (code i j) = Ok c /\ fps_isInsidePad_d fuel l (fst c) (snd c) (code i j) = Some (Ok true).
Proof.
  intros a l i np j fuel RG MD RO SO I RH J NP. destruct SO as (B & S1 & S2 & S3). destruct (centre_fps a l i np j fuel RG MD RO I RH J NP) as (c & E & (W1 & W2) & _); [destruct RO; lra|]. exists c. split; [exact E|].
  pose proof (made_rep a l RG MD) as F. destruct (made_rest a l RG MD) as (H1 & H2 & H3 & H4 & H5). destruct RG as (R1 & R2 & R3). destruct RO as (RO1 & RO2). pose proof (fr_len a l F) as FL.
  destruct (row_has_inv a l i np F RO1 ltac:(lia) ltac:(lia) RH) as (IN & row & ER & EN). assert (I0 : 0 <= IZR i) by (apply IZR_le; lia). assert (J0 : 0 <= IZR j) by (apply IZR_le; lia).
  assert (RM : fa_rMin a + (IZR i + 1) * row_h a l <= fa_rMax a).
  { assert (EH : fa_rMax a = fa_rMin a + IZR (f_nRow l) * row_h a l) by (unfold row_h; rewrite FL; field; apply not_0_IZR; lia). rewrite EH. apply Rplus_le_compat_l, Rmult_le_compat_r; [lra|]. rewrite <- plus_IZR. apply IZR_le. lia. }
  set (w := fa_phiMax a / IZR np) in *. assert (NP1 : 1 <= IZR np) by (apply IZR_le; lia). assert (EW : fa_phiMax a = w * IZR np) by (unfold w; field; lra). assert (W0 : 0 < w) by (unfold w; apply Rdiv_lt_0_compat; lra).
  assert (J1 : (IZR j + 1) * w <= fa_phiMax a) by (rewrite EW, Rmult_comm; apply Rmult_le_compat_l; [lra|]; rewrite <- plus_IZR; apply IZR_le; lia). assert (JW : 0 <= IZR j * w) by (apply Rmult_le_pos; lra). assert (IH : 0 <= IZR i * row_h a l) by (apply Rmult_le_pos; lra).
  unfold fps_isInsidePad_d. rewrite (fr_rMin a l F), H3, H4. rewrite !ltb_no by lra. cbn [orb]. rewrite no_turn1 by lra. rewrite E. cbn [rbind].
  assert (RC : f_RCenter row = fst c). { unfold fps_getPadCenter_d in E. rewrite code_row, code_pad in E by lia. unfold sub in E. rewrite ER in E. cbn [rbind] in E. destruct (f_NPad row =? 0)%Z; [discriminate|]. injection E as <-. reflexivity. }
  assert (C0 : 0 < fst c) by lra. unfold fps_getPadWidth_d. rewrite code_row by lia. rewrite ER, RC, H5. unfold Reqb. destruct (Req_EM_T (fst c) 0); [lra|]. cbn [rmap].
  assert (Z0 : forall x, Rabs (fsub x x) = 0) by (intros x; unfold fsub; rewrite Rminus_diag_eq by reflexivity; rewrite rnd_id by dbl 0%Z 0%Z; apply Rabs_R0).
  assert (P0 : forall x, 0 <= x -> 0 <= to_double x) by (intros x X; rewrite <- (rnd_id 0) by dbl 0%Z 0%Z; now apply rnd_le). rewrite !Z0.
  rewrite !leb_yes; [reflexivity| |unfold fmul; apply P0; lra]. unfold fmul. apply P0. apply Rmult_le_pos; [lra|]. unfold fdiv. apply P0. left. now apply Rdiv_lt_0_compat.
Qed.
Print Assumptions C103_centre.

(** ** examples: a disk of two rows, a pad of it, a point on the pad and one beside it *)
Lemma small_h : row_h small_disk small_disk_layout = 1.
Proof. unfold row_h. change (fps_getNRows small_disk_layout) with 2%Z. unfold small_disk. cbn [fa_rMin fa_rMax]. lra. Qed.
Example small_sizes : sizes_ok small_disk small_disk_layout.
Proof. unfold sizes_ok. rewrite small_h. unfold small_disk. cbn [fa_rMax fa_padHeight fa_padGap fa_padWidth]. lra. Qed.
Example small_on_pad : on_pad_area (- / 1000000) small_disk small_disk_layout 1 3 1 (3 + 1 / 3) (1 / 2).
Proof. unfold on_pad_area, mid_radius. rewrite small_h. unfold small_disk. cbn [fa_rMin fa_padHeight fa_padWidth fa_phiMax]. split; apply Rabs_le; lra. Qed.
Example small_in_gap : ~ on_pad_area (/ 1000000) small_disk small_disk_layout 1 3 1 (3 + 1 / 3) (1 / 3 + 1 / 1000).
Proof. unfold on_pad_area, mid_radius. rewrite small_h. unfold small_disk. cbn [fa_rMin fa_padHeight fa_padWidth fa_phiMax]. intros (_ & X). apply Rabs_le_inv in X. lra. Qed.
