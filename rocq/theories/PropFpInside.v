(** C102: isInsidePad for pads of fixed angle, in the arithmetic of the machine. *)
From Coq Require Import ZArith Reals Lia Lra List Bool.
From Flocq Require Import Core.
From Verif Require Import Base RBase DiskBase NumSpec NumModel FpModel FpProofs FpRectCases DiskSpec DiskProofs NumProofs FpaModel FpZpProofs FpFpaModel FpFpaSpec FpFpaProofs FpFpsProofs PropFpFpa FpDiskSpec FpInsideModel FpInsideSpec FpInsideProofs.
Import ListNotations.
Open Scope R_scope.

(** isInsidePad(r,phi,pad) holds for every point a millionth of the pad's size inside the pad ... *)
Theorem C102_inside : forall a l i j r phi, fpa_sane a -> moderate a -> not_too_thin a -> made_d a l -> fpa_pad a i j -> well_inside a i j r phi ->
  fpa_isInsidePad_d l r phi (code i j) = true.
Proof.
  intros a l i j r phi S M F E P (W1 & W2). destruct (inside_iff a l i j r phi S M F E P) as (r0 & r1 & p0 & p1 & X & A & B & C & D). apply X. destruct M as (M1 & M2 & _). apply Rabs_le_inv in A, B, C, D. split; lra.
Qed.
Print Assumptions C102_inside.
(** ... and only for points on the pad, up to a millionth. *)
Theorem C102_inside_only : forall a l i j r phi, fpa_sane a -> moderate a -> not_too_thin a -> made_d a l -> fpa_pad a i j -> fpa_isInsidePad_d l r phi (code i j) = true ->
  on_pad_fpa a i j r phi.
Proof.
  intros a l i j r phi S M F E P T. destruct (inside_iff a l i j r phi S M F E P) as (r0 & r1 & p0 & p1 & X & A & B & C & D). apply X in T. destruct M as (M1 & M2 & _). apply Rabs_le_inv in A, B, C, D. unfold on_pad_fpa. split; lra.
Qed.
Print Assumptions C102_inside_only.
(** So a point well inside one pad is inside no other, and isInsidePad holds for just the pad that getNearestPad returns. *)
Theorem C102_one_pad : forall a l i j i' j' r phi fuel, fpa_sane a -> moderate a -> not_too_thin a -> made_d a l -> fpa_pad a i j -> fpa_pad a i' j' -> well_inside a i j r phi ->
  (fpa_isInsidePad_d l r phi (code i' j') = true <-> fpa_getNearestPad_d fuel l r phi = Found (Ok (code i' j'))).
Proof.
  intros a l i j i' j' r phi fuel S M F E P P' W. rewrite (C97_nearest_inside a l i j r phi fuel S M E P W). split.
  - intros T. destruct (inside_iff a l i' j' r phi S M F E P') as (r0 & r1 & p0 & p1 & X & A & B & C & D). apply X in T. pose proof M as (M1 & M2 & _). apply Rabs_le_inv in A, B, C, D. destruct W as (W1 & W2).
    unfold fpa_r, fpa_phi in *. fold (row_height a) (pad_angle a) in *. rewrite !plus_IZR in *. set (h := row_height a) in *. set (w := pad_angle a) in *. clearbody h w.
    assert (K : forall x y z b, 0 < z -> b + IZR x * z + z / 1000000 <= b + (IZR y + 1) * z + z / 2000000 -> (x <= y)%Z).
    { intros x y z b Z Q. assert (x < y + 1)%Z; [|lia]. apply lt_IZR. rewrite plus_IZR. apply Rmult_lt_reg_r with z; [exact Z|]. lra. }
    assert (i = i') by (assert (i <= i')%Z by (apply (K i i' h (pa_rMin a)); lra); assert (i' <= i)%Z by (apply (K i' i h (pa_rMin a)); lra); lia).
    assert (j = j') by (assert (j <= j')%Z by (apply (K j j' w (pa_phiMin a)); lra); assert (j' <= j)%Z by (apply (K j' j w (pa_phiMin a)); lra); lia). now subst.
  - intros [= C]. assert (i = i' /\ j = j') as [<- <-]. { destruct P as (P1 & P2), P' as (P1' & P2'), S as (S1 & S2 & S3 & S4). pose proof (f_equal disk_rowNumber C) as C1. pose proof (f_equal disk_padNumber C) as C2. rewrite !code_row in C1 by lia. rewrite !code_pad in C2 by lia. auto. }
    apply (C102_inside a l i j); assumption.
Qed.
Print Assumptions C102_one_pad.

(** There are gaps between pads: 17 pads from angle 0 to 3, and a point between pads 10 and 11 that is inside the layout and inside none of its pads. *)
Definition seventeen : fpa_args := mkFpaArgs 1 2 1 0 3 17.
Definition seventeen_layout : fpa := mkFpa 1 2 1 (fdiv (fsub 2 1) 1) 0 3 (fdiv (fsub 3 0) 17) 17 17 [None].
Definition gap_phi : R := 8742281629601552 / 4503599627370496.
Ltac near m e v := rewrite (rnd_near m e) by (try lia; change (bpow radix2 e) with (/ v); apply Rabs_def1; lra); change (bpow radix2 e) with (/ v); lra.
Lemma sw : fdiv (fsub 3 0) 17 = 6358023003346583 / 36028797018963968.
Proof. assert (E : fsub 3 0 = 3) by (unfold fsub; rewrite rnd_id by dbl 3%Z 0%Z; lra). rewrite E. unfold fdiv. near 6358023003346583%Z (-55)%Z 36028797018963968. Qed.
Lemma sw2 : fdiv (6358023003346583 / 36028797018963968) 2 = 6358023003346583 / 72057594037927936.
Proof. unfold fdiv. near 6358023003346583%Z (-56)%Z 72057594037927936. Qed.
Lemma c10 : fmul (10 + 1 / 2) (6358023003346583 / 36028797018963968) = 8344905191892390 / 4503599627370496.
Proof. unfold fmul. near 8344905191892390%Z (-52)%Z 4503599627370496. Qed.
Lemma c11 : fmul (11 + 1 / 2) (6358023003346583 / 36028797018963968) = 4569829033655357 / 2251799813685248.
Proof. unfold fmul. near 4569829033655357%Z (-51)%Z 2251799813685248. Qed.
Lemma up10 : fadd (8344905191892390 / 4503599627370496) (6358023003346583 / 72057594037927936) = 8742281629601551 / 4503599627370496.
Proof. unfold fadd. near 8742281629601551%Z (-52)%Z 4503599627370496. Qed.
Lemma lo11 : fsub (4569829033655357 / 2251799813685248) (6358023003346583 / 72057594037927936) = 8742281629601553 / 4503599627370496.
Proof. unfold fsub. near 8742281629601553%Z (-52)%Z 4503599627370496. Qed.
Lemma seventeen_ok : fpa_sane seventeen /\ moderate seventeen /\ not_too_thin seventeen /\ made_d seventeen seventeen_layout.
Proof.
  split; [|split; [|split; [|reflexivity]]].
  - pose proof PI2_3_2. unfold fpa_sane, seventeen, PI2 in *. cbn [pa_rMin pa_rMax pa_nRow pa_phiMin pa_phiMax pa_nPads]. split; [lra|]. split; [lia|]. split; [lra|lia].
  - unfold moderate, row_height, pad_angle, two_pi, seventeen. cbn [pa_rMin pa_rMax pa_nRow pa_phiMin pa_phiMax pa_nPads]. rewrite Rabs_R0, Rabs_pos_eq by lra. lra.
  - unfold not_too_thin, row_height, seventeen. cbn [pa_rMin pa_rMax pa_nRow]. lra.
Qed.
Theorem C102_gap_refuted : exists a l r phi, args_double a /\ is_double r /\ is_double phi /\ fpa_sane a /\ moderate a /\ not_too_thin a /\ made_d a l /\
  fpa_isInsideAnyPad_d l r phi = true /\ forall i j, fpa_pad a i j -> fpa_isInsidePad_d l r phi (code i j) = false.
Proof.
  destruct seventeen_ok as (S & M & F & E). exists seventeen, seventeen_layout, (3 / 2), gap_phi. split; [|split; [|split; [|split; [exact S|split; [exact M|split; [exact F|split; [exact E|split]]]]]]].
  - unfold args_double, seventeen. cbn [pa_rMin pa_rMax pa_phiMin pa_phiMax]. repeat split; [dbl 1%Z 0%Z|dbl 2%Z 0%Z|dbl 0%Z 0%Z|dbl 3%Z 0%Z].
  - dbl 3%Z (-1)%Z.
  - unfold gap_phi. dbl 8742281629601552%Z (-52)%Z.
  - unfold fpa_isInsideAnyPad_d, seventeen_layout. cbn [p_rMin p_rMax p_phiMin p_phiMax]. rewrite !ltb_no by (unfold gap_phi; lra). reflexivity.
  - intros i j P. destruct (fpa_isInsidePad_d seventeen_layout (3 / 2) gap_phi (code i j)) eqn:T; [exfalso|reflexivity]. pose proof (C102_inside_only _ _ i j _ _ S M F E P T) as (_ & O).
    destruct P as (PI' & PJ). unfold seventeen in PI', PJ. cbn [pa_nRow pa_nPads] in PI', PJ. unfold fpa_phi, pad_angle, seventeen in O. cbn [pa_phiMin pa_phiMax pa_nPads] in O. rewrite plus_IZR in O.
    assert (J1 : (j < 12)%Z) by (apply lt_IZR; unfold gap_phi in O; lra). assert (J0 : (9 < j)%Z) by (apply lt_IZR; unfold gap_phi in O; lra).
    unfold fpa_isInsidePad_d, fpa_getPadCenter_d, seventeen_layout in T. cbn [fst snd p_rowHeight p_padAngle p_rMin p_phiMin] in T. rewrite code_row, code_pad in T by lia. rewrite (half_at j) in T by lia. rewrite sw, sw2 in T. apply negb_true_iff in T. apply orb_false_iff in T. destruct T as (T & T2). apply orb_false_iff in T. destruct T as (_ & T1).
    assert (Z0 : forall x, is_double x -> fadd x 0 = x) by (intros x X; unfold fadd; rewrite Rplus_0_r; now apply rnd_id). assert (C : j = 10%Z \/ j = 11%Z) by lia. destruct C as [-> | ->].
    + rewrite c10, Z0, up10 in T2 by dbl 8344905191892390%Z (-52)%Z. rewrite ltb_yes in T2 by (unfold gap_phi; lra). discriminate.
    + rewrite c11, Z0, lo11 in T1 by dbl 4569829033655357%Z (-51)%Z. rewrite ltb_yes in T1 by (unfold gap_phi; lra). discriminate.
Qed.
Print Assumptions C102_gap_refuted.

(** ** example *)
Example seventeen_point : fpa_pad seventeen 0 10 /\ well_inside seventeen 0 10 (3 / 2) (19 / 10).
Proof. split; [unfold fpa_pad, seventeen; cbn; lia|]. unfold well_inside, fpa_r, fpa_phi, row_height, pad_angle, seventeen. cbn [pa_rMin pa_rMax pa_nRow pa_phiMin pa_phiMax pa_nPads]. rewrite !plus_IZR. lra. Qed.
