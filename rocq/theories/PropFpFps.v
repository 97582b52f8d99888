(** C98: pads of fixed size on a disk, in the arithmetic of the machine. *)
From Coq Require Import ZArith Reals Lia Lra List Bool.
From Flocq Require Import Core.
From Verif Require Import Base RBase DiskBase NumSpec NumModel FpModel FpProofs FpRectCases DiskSpec DiskProofs FpsModel FpFpaModel FpFpaProofs FpFpsModel FpFpsSpec FpFpsProofs.
Import ListNotations.
Open Scope R_scope.

(** For a point a millionth of the pad's size inside a pad, getNearestPad returns that pad. *)
Theorem C98_nearest_inside : forall a l i np j r phi fuel, ring a -> fps_made_d a l -> rows_ok a l -> (0 <= i < 65536)%Z -> row_has l i np -> (0 <= j < np)%Z -> (np <= 65536)%Z ->
  is_double phi -> / 100000 <= r -> well_inside_fps a l i np j r phi -> fps_getNearestPad_d fuel l r phi = Found (Ok (code i j)).
Proof. intros a l i np j r phi fuel RG MD RO I RH J NP D R W. apply (near_fps a l i np j); auto; lia. Qed.
Print Assumptions C98_nearest_inside.

(** The centre that getPadCenter reports is such a point, and the pad is found again. *)
Theorem C98_centre_found : forall a l i np j fuel, ring a -> fps_made_d a l -> rows_ok a l -> (0 <= i < 65536)%Z -> row_has l i np -> (0 <= j < np)%Z -> (np <= 65536)%Z ->
  fa_rMax a <= 1000000000000 * row_h a l ->
  exists c, fps_getPadCenter_d l (code i j) = Ok c /\ well_inside_fps a l i np j (fst c) (snd c) /\ fps_getNearestPad_d fuel l (fst c) (snd c) = Found (Ok (code i j)).
Proof. exact centre_fps. Qed.
Print Assumptions C98_centre_found.

(** The pads of a row, each with its gap, fit on the arc through the middle of the row, and one more does not, up to a relative error of 1e-14. *)
Theorem C98_pads_fit : forall a l i np, ring a -> fps_made_d a l -> rows_ok a l -> / 1000000 <= fa_padWidth a + fa_padGap a <= 1000000 -> (0 <= i < 65536)%Z -> (0 < np)%Z -> row_has l i np ->
  let arc := (fa_rMin a + (IZR i + 1 / 2) * row_h a l) * fa_phiMax a in let pitch := fa_padWidth a + fa_padGap a in
  IZR np * pitch <= arc * (1 + / 100000000000000) /\ arc * (1 - / 100000000000000) < (IZR np + 1) * pitch.
Proof. intros a l i np RG MD RO P I NP RH. apply pads_fit; auto; lia. Qed.
Print Assumptions C98_pads_fit.

(** If the ring is [k] pad heights wide, up to a thousandth of a length unit, there are [k] rows, or as many as were asked for if that is between one and [k]. *)
Theorem C98_rows : forall a l k, ring a -> fps_made_d a l -> fa_rMax a <= 1000000000 -> / 50 <= fa_padHeight a -> (1 <= k)%Z ->
  Rabs (fa_rMax a - fa_rMin a - IZR k * fa_padHeight a) <= / 1000 ->
  fps_getNRows l = if ((0 <? fa_nRow a) && (fa_nRow a <=? k))%Z%bool then fa_nRow a else k.
Proof. exact rows_count. Qed.
Print Assumptions C98_rows.

(** ** example: two rows of two and three pads *)
Ltac dbl m e := apply (double_frac m e); [unfold powerRZ; simpl; lra|reflexivity|lia].
Definition small_disk : fps_args := mkFpsArgs 2 4 1 1 0 (1 / 8) 1.
Definition small_disk_layout : fps :=
  mkFps 2 4 1 1 1 1 (1 / 8) 2 5 [mkF 2 (2 + 1 / 2) (fdiv 1 2); mkF 3 (3 + 1 / 2) (fdiv 1 3)] [None; None].
Example small_disk_made : fps_made_d small_disk small_disk_layout.
Proof.
  exists 0%nat. unfold new_fps_d, small_disk. cbn [fa_rMin fa_rMax fa_padHeight fa_padWidth fa_nRow fa_padGap fa_phiMax].
  assert (X : Rleb 1 0 = false) by (unfold Rleb; destruct (Rle_dec _ _); [lra|reflexivity]). rewrite X. cbn [orb]. rewrite no_turn2 by (unfold two_pi; lra). f_equal.
  unfold to_int at 1. rewrite (rows_trunc 2 4 1 2) by (lia || lra || (rewrite Rabs_pos_eq; lra)). change (int_okb 2) with true. cbn [rbind]. change (0 <? 0)%Z with false. change (2 <? 0)%Z with false. cbv iota.
  assert (H : fdiv (fsub 4 2) 2 = 1). { unfold fsub, fdiv. rewrite (rnd_id (4 - 2)) by dbl 2%Z 0%Z. rewrite rnd_id by dbl 1%Z 0%Z. lra. } rewrite H. change (Z.to_nat 2) with 2%nat. cbn [fps_rows_d]. change (0 + 1)%Z with 1%Z.
  assert (P : fadd 1 (1 / 8) = 9 / 8) by (unfold fadd; rewrite rnd_id by dbl 9%Z (-3)%Z; lra). rewrite P. unfold Reqb. destruct (Req_EM_T (9 / 8) 0); [lra|].
  assert (C0 : fadd (fadd 2 (fmul 0 1)) (fmul (1 / 2) 1) = 2 + 1 / 2). { unfold fadd, fmul. rewrite (rnd_id (0 * 1)) by dbl 0%Z 0%Z. rewrite (rnd_id (1 / 2 * 1)) by dbl 1%Z (-1)%Z. rewrite (rnd_id (2 + 0 * 1)) by dbl 2%Z 0%Z. rewrite rnd_id by dbl 5%Z (-1)%Z. lra. }
  assert (C1 : fadd (fadd 2 (fmul 1 1)) (fmul (1 / 2) 1) = 3 + 1 / 2). { unfold fadd, fmul. rewrite (rnd_id (1 * 1)) by dbl 1%Z 0%Z. rewrite (rnd_id (1 / 2 * 1)) by dbl 1%Z (-1)%Z. rewrite (rnd_id (2 + 1 * 1)) by dbl 3%Z 0%Z. rewrite rnd_id by dbl 7%Z (-1)%Z. lra. }
  rewrite C0, C1. assert (U0 : fmul (2 + 1 / 2) 1 = 5 / 2) by (unfold fmul; rewrite rnd_id by dbl 5%Z (-1)%Z; lra). assert (U1 : fmul (3 + 1 / 2) 1 = 7 / 2) by (unfold fmul; rewrite rnd_id by dbl 7%Z (-1)%Z; lra). rewrite U0, U1.
  assert (F0 : Zfloor (fdiv (5 / 2) (9 / 8)) = 2%Z). { apply floor_at. unfold fdiv. destruct (FpZpProofs.double_rel (5 / 2 / (9 / 8))) as [A B]; [apply FpZpProofs.small_d; lra|]. unfold FpZpProofs.u64 in *. lra. }
  assert (F1 : Zfloor (fdiv (7 / 2) (9 / 8)) = 3%Z). { apply floor_at. unfold fdiv. destruct (FpZpProofs.double_rel (7 / 2 / (9 / 8))) as [A B]; [apply FpZpProofs.small_d; lra|]. unfold FpZpProofs.u64 in *. lra. }
  rewrite F0, F1. unfold to_int. rewrite !Ztrunc_IZR. reflexivity.
Qed.
Example small_disk_ok : ring small_disk /\ rows_ok small_disk small_disk_layout /\ row_has small_disk_layout 0 2 /\ row_has small_disk_layout 1 3 /\
  fa_rMax small_disk <= 1000000000000 * row_h small_disk small_disk_layout /\ Rabs (fa_rMax small_disk - fa_rMin small_disk - IZR 2 * fa_padHeight small_disk) <= / 1000.
Proof.
  assert (H : row_h small_disk small_disk_layout = 1) by (unfold row_h; change (fps_getNRows small_disk_layout) with 2%Z; unfold small_disk; cbn [fa_rMin fa_rMax]; lra). split; [|split; [|split; [|split; [|split]]]].
  - unfold ring, small_disk, two_pi. cbn [fa_rMin fa_rMax fa_phiMax]. split; [lra|]. split; [lra|dbl 1%Z 0%Z].
  - split; [change (fps_getNRows small_disk_layout) with 2%Z; lia|rewrite H; lra].
  - intros j J. unfold fps_getPadIndex. change (_ <? uint32 0)%Z with false. cbv iota. change (sub (f_rows small_disk_layout) 0) with (Ok (mkF 2 (2 + 1 / 2) (fdiv 1 2))). cbn [rbind f_NPad]. destruct (Z.ltb_spec (2 - 1) j); split; intros X; try lia; [destruct X; discriminate|eauto].
  - intros j J. unfold fps_getPadIndex. change (_ <? uint32 1)%Z with false. cbv iota. change (sub (f_rows small_disk_layout) 1) with (Ok (mkF 3 (3 + 1 / 2) (fdiv 1 3))). cbn [rbind f_NPad]. destruct (Z.ltb_spec (3 - 1) j); split; intros X; try lia; [destruct X; discriminate|eauto].
  - rewrite H. simpl. lra.
  - simpl. rewrite Rabs_pos_eq; lra.
Qed.
Example small_disk_point : well_inside_fps small_disk small_disk_layout 1 3 1 (3 + / 3) (1 / 2).
Proof. unfold well_inside_fps. assert (H : row_h small_disk small_disk_layout = 1) by (unfold row_h; change (fps_getNRows small_disk_layout) with 2%Z; unfold small_disk; cbn [fa_rMin fa_rMax]; lra). rewrite H. simpl. lra. Qed.
