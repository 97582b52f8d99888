(** C100: every point of a disk layout is found, in the arithmetic of the machine. *)
From Coq Require Import ZArith Reals Lia Lra List Bool.
From Flocq Require Import Core.
From Verif Require Import Base RBase DiskBase NumSpec NumModel FpModel FpProofs FpRectCases DiskSpec DiskProofs NumProofs FpaModel FpsModel FpZpProofs FpFpaModel FpFpaSpec FpFpaProofs FpFpsModel FpFpsSpec FpFpsProofs PropFpFpa PropFpFps FpDiskSpec FpDiskProofs.
Import ListNotations.
Open Scope R_scope.

(** Pads of fixed angle: between the two radii and the two limiting angles, but 1e-12 away from the latter, getNearestPad returns a pad on which the point lies, up to a millionth of its size. *)
Theorem C100_fpa_every_point : forall a l r phi fuel, fpa_sane a -> moderate a -> made_d a l ->
  pa_rMin a <= r <= pa_rMax a -> pa_phiMin a + / 1000000000000 <= phi <= pa_phiMax a - / 1000000000000 ->
  exists i j, fpa_pad a i j /\ on_pad_fpa a i j r phi /\ fpa_getNearestPad_d fuel l r phi = Found (Ok (code i j)).
Proof. exact fpa_any. Qed.
Print Assumptions C100_fpa_every_point.

(** Pads of fixed size: the same, for all angles of the layout. *)
Theorem C100_fps_every_point : forall a l r phi fuel, ring a -> fps_made_d a l -> rows_ok a l -> rows_filled l -> (0 < fps_getNRows l)%Z ->
  is_double phi -> / 100000 <= r -> fa_rMin a <= r <= fa_rMax a -> 0 <= phi <= fa_phiMax a ->
  exists i np j, row_has l i np /\ (0 <= i < fps_getNRows l)%Z /\ (0 <= j < np)%Z /\ on_pad_fps a l i np j r phi /\ fps_getNearestPad_d fuel l r phi = Found (Ok (code i j)).
Proof. exact fps_any. Qed.
Print Assumptions C100_fps_every_point.

(** Without the distance from the limiting angles the first claim fails: three pads from angle 0 to 2, and a point just below angle 2. The quotient is rounded to 3, and getNearestPad throws. *)
Definition three : fpa_args := mkFpaArgs 1 2 1 0 2 3.
Definition three_layout : fpa := mkFpa 1 2 1 (fdiv (fsub 2 1) 1) 0 2 (fdiv (fsub 2 0) 3) 3 3 [None].
Definition edge_phi : R := 2 - / 4503599627370496.
Local Notation fe := (FLT_exp (-1074) 53).
Lemma fe_valid : Valid_exp fe.
Proof. apply FLT_exp_valid. red. lia. Qed.
Lemma third_le : fdiv 2 3 <= 6004799503160661 / 9007199254740992.
Proof.
  set (u := 6004799503160661 / 9007199254740992). assert (F : generic_format radix2 fe u) by (apply double_format; unfold u; dbl 6004799503160661%Z (-53)%Z).
  assert (MG : mag radix2 u = 0%Z :> Z). { apply mag_unique. unfold u. rewrite Rabs_pos_eq by lra. change (bpow radix2 (0 - 1)) with (/ 2). change (bpow radix2 0) with 1. lra. }
  assert (SU : succ radix2 fe u = u + / 9007199254740992). { rewrite succ_eq_pos by (unfold u; lra). rewrite ulp_neq_0 by (unfold u; lra). unfold cexp. rewrite MG. change (fe 0%Z) with (-53)%Z. change (bpow radix2 (-53)) with (/ 9007199254740992). reflexivity. }
  unfold fdiv, to_double. apply round_N_le_midp; [exact fe_valid|exact F|]. rewrite SU. unfold u. lra.
Qed.
Lemma edge_quotient : 3 <= fdiv edge_phi (fdiv 2 3).
Proof.
  assert (F : generic_format radix2 fe 3) by (apply double_format; dbl 3%Z 0%Z). assert (MG : mag radix2 3 = 2%Z :> Z). { apply mag_unique. rewrite Rabs_pos_eq by lra. change (bpow radix2 (2 - 1)) with 2. change (bpow radix2 2) with 4. lra. }
  set (v := 3 - / 2251799813685248). assert (FV : generic_format radix2 fe v) by (apply double_format; unfold v; dbl 6755399441055743%Z (-51)%Z).
  assert (MV : mag radix2 v = 2%Z :> Z). { apply mag_unique. unfold v. rewrite Rabs_pos_eq by lra. change (bpow radix2 (2 - 1)) with 2. change (bpow radix2 2) with 4. lra. }
  assert (SU : succ radix2 fe v = 3). { rewrite succ_eq_pos by (unfold v; lra). rewrite ulp_neq_0 by (unfold v; lra). unfold cexp. rewrite MV. change (fe 2%Z) with (-51)%Z. change (bpow radix2 (-51)) with (/ 2251799813685248). unfold v. lra. }
  assert (PR : pred radix2 fe 3 = v) by (rewrite <- SU; apply pred_succ; [exact fe_valid|exact FV]).
  pose proof third_le as T. assert (T0 : / 2 <= fdiv 2 3) by (apply FpRectProofs2.rnd_lo; [dbl 1%Z (-1)%Z|lra]). set (w := fdiv 2 3) in *. clearbody w.
  unfold fdiv, to_double. apply round_N_ge_midp; [exact fe_valid|exact F|]. rewrite PR. unfold v.
  apply Rlt_le_trans with (edge_phi / (6004799503160661 / 9007199254740992)); [unfold edge_phi; lra|]. unfold Rdiv at 1 3. apply Rmult_le_compat_l; [unfold edge_phi; lra|]. apply Rinv_le; lra.
Qed.
Lemma three_moderate : moderate three.
Proof. unfold moderate, row_height, pad_angle, two_pi, three. cbn [pa_rMin pa_rMax pa_nRow pa_phiMin pa_phiMax pa_nPads]. rewrite Rabs_R0, Rabs_pos_eq by lra. lra. Qed.
Lemma three_sane : fpa_sane three.
Proof. pose proof PI2_1. unfold fpa_sane, three, PI2 in *. cbn [pa_rMin pa_rMax pa_nRow pa_phiMin pa_phiMax pa_nPads]. split; [lra|]. split; [lia|]. split; [lra|lia]. Qed.
Lemma edge_throws fuel : exists m, fpa_getNearestPad_d fuel three_layout (3 / 2) edge_phi = Found (Throw (EOutOfRange m)).
Proof.
  unfold fpa_getNearestPad_d, three_layout. cbn [p_phiMax p_phiMin p_rMin p_rowHeight p_padAngle p_nRow]. rewrite ltb_no by lra.
  assert (M : moderate (mkFpaArgs 1 2 1 (-1) 3 3)) by (unfold moderate, row_height, pad_angle, two_pi; cbn [pa_rMin pa_rMax pa_nRow pa_phiMin pa_phiMax pa_nPads]; rewrite Rabs_left, Rabs_pos_eq by lra; lra).
  pose proof (no_turn (mkFpaArgs 1 2 1 (-1) 3 3) edge_phi fuel M) as N. cbn [pa_phiMin pa_phiMax] in N. assert (E : fadd 2 0 = fadd 3 (-1)) by (unfold fadd; f_equal; lra). rewrite E, N by (unfold edge_phi; lra). clear N M E.
  rewrite !leb_yes by (unfold edge_phi; lra). cbn [andb].
  assert (P0 : fsub edge_phi 0 = edge_phi) by (unfold fsub, edge_phi; rewrite rnd_id by dbl 9007199254740991%Z (-52)%Z; lra). assert (P2 : fsub 2 0 = 2) by (unfold fsub; rewrite rnd_id by dbl 2%Z 0%Z; lra). rewrite P0, P2.
  pose proof edge_quotient as Q. assert (Q1 : fdiv edge_phi (fdiv 2 3) < 4).
  { assert (T0 : / 2 <= fdiv 2 3) by (apply FpRectProofs2.rnd_lo; [dbl 1%Z (-1)%Z|lra]). assert (B : 6 / 10 <= fdiv 2 3). { destruct (double_rel (2 / 3)) as [A _]; [apply small_d; lra|]. unfold fdiv, u64 in *. lra. }
    assert (D : fdiv edge_phi (fdiv 2 3) <= 7 / 2). { apply FpRectProofs2.rnd_up; [dbl 7%Z (-1)%Z|]. apply Rmult_le_reg_r with (fdiv 2 3); [lra|]. replace (edge_phi / fdiv 2 3 * fdiv 2 3) with edge_phi by (field; lra). unfold edge_phi. lra. } lra. }
  assert (TR : Ztrunc (fdiv edge_phi (fdiv 2 3)) = 3%Z) by (apply trunc_at; [lia|simpl; lra]). unfold to_int at 1. rewrite TR. change (int_okb 3) with true. cbn [rbind]. rewrite ltb_no by lra.
  assert (R1 : fdiv (fsub (3 / 2) 1) (fdiv (fsub 2 1) 1) = 1 / 2). { assert (A : fsub (3 / 2) 1 = 1 / 2) by (unfold fsub; rewrite rnd_id by dbl 1%Z (-1)%Z; lra). assert (B : fsub 2 1 = 1) by (unfold fsub; rewrite rnd_id by dbl 1%Z 0%Z; lra). assert (C : fdiv 1 1 = 1) by (unfold fdiv; rewrite rnd_id by dbl 1%Z 0%Z; lra). rewrite A, B, C. unfold fdiv. rewrite rnd_id by dbl 1%Z (-1)%Z. lra. }
  rewrite R1. rewrite (floor_at 0) by lra. unfold to_int. rewrite Ztrunc_IZR. change (int_okb 0) with true. cbn [rbind]. change (1 <=? 0)%Z with false. cbv iota. eexists. reflexivity.
Qed.
Theorem C100_edge_refuted : exists a l r phi, args_double a /\ is_double phi /\ fpa_sane a /\ moderate a /\ made_d a l /\ pa_rMin a < r < pa_rMax a /\ pa_phiMin a < phi < pa_phiMax a /\
  (forall fuel, exists m, fpa_getNearestPad_d fuel l r phi = Found (Throw (EOutOfRange m))).
Proof.
  exists three, three_layout, (3 / 2), edge_phi. split; [|split; [|split; [exact three_sane|split; [exact three_moderate|split; [reflexivity|split; [|split; [|exact edge_throws]]]]]]].
  - unfold args_double, three. cbn [pa_rMin pa_rMax pa_phiMin pa_phiMax]. repeat split; [dbl 1%Z 0%Z|dbl 2%Z 0%Z|dbl 0%Z 0%Z|dbl 2%Z 0%Z].
  - unfold edge_phi. dbl 9007199254740991%Z (-52)%Z.
  - simpl. lra.
  - simpl. unfold edge_phi. lra.
Qed.
Print Assumptions C100_edge_refuted.

(** ** examples: the same layout at an angle on the edge between two pads, and the layout of two rows of C98 on the edge between its rows *)
Example three_edge fuel : exists i j, fpa_pad three i j /\ on_pad_fpa three i j 2 (2 / 3) /\ fpa_getNearestPad_d fuel three_layout 2 (2 / 3) = Found (Ok (code i j)).
Proof. apply C100_fpa_every_point; [exact three_sane|exact three_moderate|reflexivity|simpl; lra|simpl; lra]. Qed.
Example small_disk_filled : rows_filled small_disk_layout.
Proof.
  destruct small_disk_ok as (_ & _ & A & B & _). intros i I. change (fps_getNRows small_disk_layout) with 2%Z in I. assert (C : i = 0%Z \/ i = 1%Z) by lia. destruct C; subst; [exists 2%Z|exists 3%Z]; (split; [assumption|lia]).
Qed.
Example small_disk_edge fuel : exists i np j, row_has small_disk_layout i np /\ (0 <= i < 2)%Z /\ (0 <= j < np)%Z /\ on_pad_fps small_disk small_disk_layout i np j 3 1 /\ fps_getNearestPad_d fuel small_disk_layout 3 1 = Found (Ok (code i j)).
Proof.
  destruct small_disk_ok as (A & B & _). apply C100_fps_every_point; [exact A|exact small_disk_made|exact B|exact small_disk_filled|reflexivity|dbl 1%Z 0%Z|lra|simpl; lra|simpl; lra].
Qed.
