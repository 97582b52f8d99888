(** C104: isInsidePad of the versatile disk layout, in the arithmetic of the machine. *)
From Coq Require Import ZArith Reals Lia Lra Psatz List Bool.
From Flocq Require Import Core.
From Verif Require Import Base RBase DiskBase NumSpec NumModel FpModel FpProofs DiskSpec DiskProofs VdModel FpFpaModel FpFpaProofs FpZpProofs FpFpsProofs FpVdModel FpVdSpec FpVdProofs PropFpVd FpInside3Model FpInside3Spec FpInside3Proofs.
Open Scope R_scope.

(** isInsidePad(r,phi,pad) is true for every point a millionth of the pad's size inside the pad ... *)
Theorem C104_inside : forall rMin a l i j r phi, vd_limits rMin a -> vd_made_d rMin a l -> (0 <= i < va_repeat a)%Z -> (0 <= j < va_nPads a)%Z ->
  / 10000000 <= pad_w rMin a i -> pad_w rMin a i / 100000 <= phi < two_pi -> well_inside_vd rMin a i j r phi -> vd_isInsidePad_d l r phi (code i j) = Ok true.
Proof. intros rMin a l i j r phi L M I J W P Q. destruct (vd_inside rMin a l i j r phi L M I J W P) as (b & E & _ & B). now rewrite E, (B Q). Qed.
Print Assumptions C104_inside.
(** ... and false for every point that misses it by a millionth, in spite of the turns added to and taken off the angle. *)
Theorem C104_outside : forall rMin a l i j r phi, vd_limits rMin a -> vd_made_d rMin a l -> (0 <= i < va_repeat a)%Z -> (0 <= j < va_nPads a)%Z ->
  / 10000000 <= pad_w rMin a i -> pad_w rMin a i / 100000 <= phi < two_pi -> ~ near_pad_vd rMin a i j r phi -> vd_isInsidePad_d l r phi (code i j) = Ok false.
Proof. intros rMin a l i j r phi L M I J W P Q. destruct (vd_inside rMin a l i j r phi L M I J W P) as ([|] & E & B & _); [destruct (Q (B eq_refl))|exact E]. Qed.
Print Assumptions C104_outside.
(** So for points well inside a pad isInsidePad holds for just one pad of the row, the one getNearestPad returns. *)
Theorem C104_one_pad : forall rMin a l i j j' r phi cosd fuel, vd_limits rMin a -> vd_made_d rMin a l -> (0 <= i < va_repeat a)%Z -> (0 <= j < va_nPads a)%Z -> (0 <= j' < va_nPads a)%Z ->
  / 10000000 <= pad_w rMin a i -> is_double r -> is_double phi -> pad_w rMin a i / 100000 <= phi < two_pi -> well_inside_vd rMin a i j r phi ->
  (vd_isInsidePad_d l r phi (code i j') = Ok true <-> vd_getNearestPad_d cosd fuel l r phi = Found (Ok (code i j'))).
Proof.
  intros rMin a l i j j' r phi cosd fuel L M I J J' W DR DP P Q. rewrite (C99_nearest_inside rMin a l i j r phi cosd fuel L M I J DR DP ltac:(lra) Q). pose proof L as (_ & _ & _ & _ & LP & LR & _). destruct (Z.eq_dec j j') as [<-|NE].
  - split; [reflexivity|]. intros _. apply (C104_inside rMin a l i j); assumption.
  - split; intros X; exfalso; [|injection X as X; pose proof (f_equal disk_padNumber X) as Y; rewrite !code_pad in Y by lia; congruence].
    rewrite (C104_outside rMin a l i j' r phi L M I J' W P) in X; [discriminate|]. intros (_ & Y). destruct Q as (_ & Q). cbv zeta in Q. set (w := pad_w rMin a i) in *. clearbody w.
    assert (K : forall x y, (x < y)%Z -> (IZR x + 1) * w <= IZR y * w) by (intros x y XY; apply Rmult_le_compat_r; [lra|]; rewrite <- plus_IZR; apply IZR_le; lia).
    destruct (Z.lt_total j j') as [C|[C|C]]; [pose proof (K _ _ C); lra|contradiction|pose proof (K _ _ C); lra].
Qed.
Print Assumptions C104_one_pad.

(** A turn more makes no difference. *)
Theorem C104_turn : forall rMin a l i j r phi, vd_limits rMin a -> vd_made_d rMin a l -> (0 <= i < va_repeat a)%Z -> (0 <= j < va_nPads a)%Z ->
  / 10000000 <= pad_w rMin a i -> well_inside_vd rMin a i j r (phi - two_pi) -> vd_isInsidePad_d l r phi (code i j) = Ok true.
Proof. exact vd_inside_turn. Qed.
Print Assumptions C104_turn.

(** ** examples: the two rows of three pads of C99, a point inside a pad and one beside it *)
Example two_rows_wide : / 10000000 <= pad_w (3 / 2) two_rows 1 /\ pad_w (3 / 2) two_rows 1 / 100000 <= 3 / 4 < two_pi.
Proof. unfold pad_w, mid_r, two_rows, two_pi. cbn [va_height va_pitch]. lra. Qed.
Example two_rows_beside : ~ near_pad_vd (3 / 2) two_rows 1 1 3 (3 / 4).
Proof. unfold near_pad_vd, pad_w, mid_r, two_rows. cbn [va_height va_pitch]. lra. Qed.
Example two_rows_turn : well_inside_vd (3 / 2) two_rows 1 2 3 (3 / 4 + two_pi - two_pi).
Proof. unfold well_inside_vd, pad_w, mid_r, two_rows. cbn [va_height va_pitch]. lra. Qed.
