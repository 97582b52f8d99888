(** C97: pads of fixed angle are found again, in the arithmetic of the machine. *)
From Coq Require Import ZArith Reals Lia Lra List Bool.
From Flocq Require Import Core.
From Verif Require Import Base RBase DiskBase NumSpec NumModel FpModel FpProofs FpRectCases DiskSpec DiskProofs FpMapCases NumProofs FpaModel FpFpaModel FpFpaSpec FpFpaProofs.
Import ListNotations.
Open Scope R_scope.

Definition made_d (a : fpa_args) (l : fpa) : Prop := new_fpa_d (pa_rMin a) (pa_rMax a) (pa_nRow a) (pa_phiMin a) (pa_phiMax a) (pa_nPads a) = Ok l.

(** Whatever its coordinates, for a point a millionth of the pad's size inside a pad getNearestPad returns that pad. *)
Theorem C97_nearest_inside : forall a l i j r phi fuel, fpa_sane a -> moderate a -> made_d a l -> fpa_pad a i j -> well_inside a i j r phi ->
  fpa_getNearestPad_d fuel l r phi = Found (Ok (code i j)).
Proof. exact near_cell. Qed.
Print Assumptions C97_nearest_inside.

(** The centre that getPadCenter reports is such a point, and the pad is found again. *)
Theorem C97_centre_found : forall a l i j fuel, fpa_sane a -> moderate a -> made_d a l -> fpa_pad a i j -> pa_rMax a <= 1000000000000 * row_height a ->
  let c := fpa_getPadCenter_d l (code i j) in well_inside a i j (fst c) (snd c) /\ fpa_getNearestPad_d fuel l (fst c) (snd c) = Found (Ok (code i j)).
Proof. exact centre_near. Qed.
Print Assumptions C97_centre_found.

(** With rows that are thin in comparison with their radius this fails: the reported centre of some pad lies in another row. *)
Definition thin : fpa_args := mkFpaArgs 4503599627370496 4503599627370498 4 0 1 1.
Definition thin_layout : fpa := mkFpa 4503599627370496 4503599627370498 4 (1 / 2) 0 1 1 1 4 [None; None; None; None].
Ltac dbl m e := apply (double_frac m e); [unfold powerRZ; simpl; lra|reflexivity|lia].
Lemma thin_made : made_d thin thin_layout.
Proof.
  unfold made_d, new_fpa_d, thin. cbn [pa_rMin pa_rMax pa_nRow pa_phiMin pa_phiMax pa_nPads]. change (4 <? 0)%Z with false. cbv iota. unfold thin_layout, fsub, fdiv. f_equal.
  rewrite (rnd_id (4503599627370498 - 4503599627370496)) by dbl 2%Z 0%Z. rewrite (rnd_id (1 - 0)) by dbl 1%Z 0%Z. rewrite (rnd_id ((4503599627370498 - 4503599627370496) / 4)) by dbl 1%Z (-1)%Z. rewrite rnd_id by dbl 1%Z 0%Z.
  f_equal; lra.
Qed.
Lemma thin_centre : fpa_getPadCenter_d thin_layout (code 1 0) = (4503599627370497, 1 / 2).
Proof.
  unfold fpa_getPadCenter_d. rewrite code_row, code_pad by lia. rewrite !half_at by lia. unfold thin_layout, fmul, fadd. cbn [p_rowHeight p_padAngle p_rMin p_phiMin].
  rewrite (rnd_id ((1 + 1 / 2) * (1 / 2))) by dbl 3%Z (-2)%Z. rewrite (rnd_id ((0 + 1 / 2) * 1)) by dbl 1%Z (-1)%Z. rewrite (rnd_id ((0 + 1 / 2) * 1 + 0)) by dbl 1%Z (-1)%Z. f_equal; [|lra].
  assert (V : Valid_exp (FLT_exp (-1074) 53)) by (apply FLT_exp_valid; red; lia).
  assert (F1 : generic_format radix2 (FLT_exp (-1074) 53) 4503599627370496) by (apply double_format; dbl 4503599627370496%Z 0%Z).
  assert (F2 : generic_format radix2 (FLT_exp (-1074) 53) 4503599627370497) by (apply double_format; dbl 4503599627370497%Z 0%Z).
  assert (SU : succ radix2 (FLT_exp (-1074) 53) 4503599627370496 = 4503599627370497).
  { rewrite succ_eq_pos by lra. rewrite ulp_neq_0 by lra. unfold cexp. assert (MG : mag radix2 4503599627370496 = 53%Z :> Z).
    { apply mag_unique. rewrite Rabs_pos_eq by lra. change (bpow radix2 (53 - 1)) with 4503599627370496. change (bpow radix2 53) with 9007199254740992. lra. }
    rewrite MG. change (FLT_exp (-1074) 53 53) with 0%Z. change (bpow radix2 0) with 1. lra. }
  assert (PR : pred radix2 (FLT_exp (-1074) 53) 4503599627370497 = 4503599627370496) by (rewrite <- SU; now apply pred_succ).
  apply Rle_antisym.
  - unfold to_double. apply round_le_generic; [exact V|apply valid_rnd_N|exact F2|lra].
  - unfold to_double. apply round_N_ge_midp; [exact V|exact F2|]. rewrite PR. lra.
Qed.
Lemma thin_near fuel : fpa_getNearestPad_d fuel thin_layout 4503599627370497 (1 / 2) = Found (Ok (code 2 0)).
Proof.
  unfold fpa_getNearestPad_d, thin_layout. cbn [p_phiMax p_phiMin p_rMin p_rowHeight p_padAngle p_nRow].
  assert (X0 : Rltb 4503599627370497 0 = false) by (unfold Rltb; destruct (Rlt_dec _ _); [lra|reflexivity]). rewrite X0.
  assert (M : moderate (mkFpaArgs 0 1 1 0 1 1)) by (unfold moderate, row_height, pad_angle, two_pi; cbn [pa_rMin pa_rMax pa_nRow pa_phiMin pa_phiMax pa_nPads]; rewrite Rabs_R0, Rabs_pos_eq by lra; lra).
  pose proof (no_turn (mkFpaArgs 0 1 1 0 1 1) (1 / 2) fuel M) as N. cbn [pa_phiMin pa_phiMax] in N. rewrite N by lra. clear N M X0.
  assert (X1 : Rleb (1 / 2) 1 = true) by (unfold Rleb; destruct (Rle_dec _ _); [reflexivity|lra]). assert (X2 : Rleb 0 (1 / 2) = true) by (unfold Rleb; destruct (Rle_dec _ _); [reflexivity|lra]). rewrite X1, X2. cbn [andb]. f_equal.
  unfold fsub, fdiv. rewrite (rnd_id (1 / 2 - 0)) by dbl 1%Z (-1)%Z. rewrite (rnd_id ((1 / 2 - 0) / 1)) by dbl 1%Z (-1)%Z. unfold to_int at 1. rewrite (trunc_at 0) by (lia || lra). cbn [int_okb rbind]. change (int_okb 0) with true. cbv iota. cbn [rbind].
  assert (X3 : Rltb 4503599627370497 4503599627370496 = false) by (unfold Rltb; destruct (Rlt_dec _ _); [lra|reflexivity]). rewrite X3.
  rewrite (rnd_id (4503599627370497 - 4503599627370496)) by dbl 1%Z 0%Z. rewrite (rnd_id ((4503599627370497 - 4503599627370496) / (1 / 2))) by dbl 2%Z 0%Z. rewrite (floor_at 2) by lra. unfold to_int. rewrite Ztrunc_IZR. change (int_okb 2) with true. cbv iota. cbn [rbind].
  reflexivity.
Qed.
Theorem C97_centre_found_refuted : exists a l i j c p, args_double a /\ fpa_sane a /\ made_d a l /\ fpa_pad a i j /\ moderate a /\
  fpa_getPadCenter_d l (code i j) = c /\ (forall fuel, fpa_getNearestPad_d fuel l (fst c) (snd c) = Found (Ok p)) /\ p <> code i j.
Proof.
  exists thin, thin_layout, 1%Z, 0%Z, (4503599627370497, 1 / 2), (code 2 0). split; [|split; [|split; [exact thin_made|split; [|split; [|split; [exact thin_centre|split; [exact thin_near|discriminate]]]]]]].
  - unfold args_double, thin. cbn [pa_rMin pa_rMax pa_phiMin pa_phiMax]. repeat split; [dbl 4503599627370496%Z 0%Z|dbl 4503599627370498%Z 0%Z|dbl 0%Z 0%Z|dbl 1%Z 0%Z].
  - pose proof PI2_1. unfold fpa_sane, thin, PI2 in *. cbn [pa_rMin pa_rMax pa_nRow pa_phiMin pa_phiMax pa_nPads]. split; [lra|]. split; [lia|]. split; [lra|lia].
  - unfold fpa_pad, thin. cbn. lia.
  - unfold moderate, row_height, pad_angle, two_pi, thin. cbn [pa_rMin pa_rMax pa_nRow pa_phiMin pa_phiMax pa_nPads]. rewrite Rabs_R0, Rabs_pos_eq by lra. lra.
Qed.
Print Assumptions C97_centre_found_refuted.

(** ** example: 200 rows of 1000 pads each, from 300 to 1800 and over three radians *)
Definition usual : fpa_args := mkFpaArgs 300 1800 200 (-1) 2 1000.
Example usual_ok : fpa_sane usual /\ moderate usual /\ pa_rMax usual <= 1000000000000 * row_height usual /\ fpa_pad usual 150 999 /\ exists l, made_d usual l.
Proof.
  pose proof PI2_1. unfold PI2 in *. unfold fpa_sane, moderate, row_height, pad_angle, two_pi, fpa_pad, usual. cbn [pa_rMin pa_rMax pa_nRow pa_phiMin pa_phiMax pa_nPads].
  split; [split; [lra|split; [lia|split; [lra|lia]]]|]. split; [rewrite (Rabs_left (-1)), (Rabs_pos_eq 2) by lra; lra|]. split; [lra|]. split; [lia|]. eexists. reflexivity.
Qed.
Example usual_point : well_inside usual 1 0 (310 + / 3) (-1 + / 500).
Proof. unfold well_inside, fpa_r, fpa_phi, row_height, pad_angle, usual. cbn [pa_rMin pa_rMax pa_nRow pa_phiMin pa_phiMax pa_nPads Z.add Pos.add]. simpl. lra. Qed.
