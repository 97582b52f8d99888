(** The rectangular layout in double arithmetic: concrete layouts. *)
From Coq Require Import ZArith List String Bool Reals Lra Lia.
From Flocq Require Import Core.
From Verif Require Import Base RBase ListExtra NumModel NumSpec NumProofs FpModel FpSpec FpProofs FpMapProofs FpMapCases
  RectModel RectSpec RectProofs RectProofs2 RectProofs3 FpRectModel FpRectSpec FpRectProofs FpRectProofs2 FpRectProofs3 FpRectProofs4 FpRectProofs5 FpRectProofs6 FpRectProofs7.
Import ListNotations.
Open Scope R_scope.

Lemma one_add x0 x1 y0 a : is_double x0 -> is_double x1 -> is_double y0 -> legal_call (CAdd a) -> double_call (CAdd a) ->
  width_fits_d x0 x1 (srow_of a) -> height_fits (srow_of a) ->
  exists l, built_d x0 x1 y0 [CAdd a] l /\ expected_rows_d x0 x1 [CAdd a] = repeat (srow_of a) (Z.to_nat (a_nRow a)).
Proof.
  intros D0 D1 D2 HL HD W Hh. assert (FL : Forall legal_call [CAdd a]) by (constructor; auto). assert (FD : Forall double_call [CAdd a]) by (constructor; auto).
  destruct (do_calls_drep x0 x1 y0 [CAdd a] [] false _ (drep_new x0 x1 y0) FL FD) as (l & Hl & _).
  exists l. split; [repeat (split; [assumption|]); exact Hl|].
  unfold expected_rows_d, expected_d. cbn [fold_left expect1_d fst snd].
  destruct (width_fits_d_dec x0 x1 (srow_of a)); [|contradiction]. destruct (height_fits_dec (srow_of a)); [|contradiction]. reflexivity.
Qed.
Lemma double_frac m e v : v = IZR m * powerRZ 2 e -> (Z.abs m < 2 ^ 53)%Z -> (-1074 <= e)%Z -> is_double v.
Proof. intros. exists m, e. auto. Qed.
Ltac dint n := apply (double_frac n 0); [cbn [powerRZ]; lra|reflexivity|lia].

(** whole numbers: three rows of four pads, 2 high *)
Definition plain_args : add_args := mkAdd 3 4 (1/2) 2 0 0 0.
Definition plain_row : srow := mkS 4 (1/2) 2 2 0 0.
Lemma plain_srow : srow_of plain_args = plain_row.
Proof. unfold srow_of, asked_height, plain_args, plain_row. cbn [a_nPad a_padWidth a_padHeight a_rowHeight a_left a_right]. destruct (Req_EM_T 0 0); [reflexivity|lra]. Qed.
Lemma plain_width : rounded_width 0 4 plain_row = 4.
Proof. unfold rounded_width, plain_row. cbn [s_right s_left]. rewrite Rminus_0_r, Rplus_0_r, rnd_0, (rnd_id 4), Rminus_0_r by (dint 4%Z). apply rnd_id. dint 4%Z. Qed.
Lemma big_not_tiny v : 1 <= v -> not_tiny v.
Proof. unfold not_tiny. intros H. change 2 with (IZR radix2). rewrite <- bpow_powerRZ. apply Rle_trans with (bpow radix2 0); [apply bpow_le; lia|]. cbn. lra. Qed.
Lemma plain_built : exists l, built_d 0 4 0 [CAdd plain_args] l /\ expected_rows_d 0 4 [CAdd plain_args] = [plain_row; plain_row; plain_row].
Proof.
  rewrite <- plain_srow. apply one_add; try (dint 0%Z); try (dint 4%Z).
  - cbn. repeat split; try lra; lia.
  - cbn. repeat split; try (dint 0%Z); try (dint 2%Z); try lia. apply (double_frac 1 (-1)); [cbn [powerRZ]; simpl; lra|reflexivity|lia].
  - rewrite plain_srow. unfold width_fits_d. change (to_double (to_double (4 - s_right plain_row) - to_double (0 + s_left plain_row))) with (rounded_width 0 4 plain_row).
    rewrite plain_width. cbn [plain_row s_n s_padW]. apply rnd_up; [dint 4%Z|lra].
  - rewrite plain_srow. unfold height_fits. cbn. lra.
Qed.
Lemma plain_sound : sound_row 0 4 plain_row.
Proof. split; [cbn; lra|]. rewrite plain_width. split; apply big_not_tiny; cbn; lra. Qed.

(** two rows, 1.2 high (the double nearest to 1.2), from y = 1; the point y = 2.2 *)
Definition h12 : R := 5404319552844595 / 4503599627370496.
Definition y22 : R := 4953959590107546 / 2251799813685248.
Definition hang_args : add_args := mkAdd 2 4 (1/2) h12 0 0 0.
Definition hang_row : srow := mkS 4 (1/2) h12 h12 0 0.
Lemma h12_double : is_double h12.
Proof. apply (double_frac 5404319552844595 (-52)); [unfold h12, powerRZ; simpl; lra|reflexivity|lia]. Qed.
Lemma y22_double : is_double y22.
Proof. apply (double_frac 4953959590107546 (-51)); [unfold y22, powerRZ; simpl; lra|reflexivity|lia]. Qed.
Lemma hang_srow : srow_of hang_args = hang_row.
Proof. unfold srow_of, asked_height, hang_args, hang_row. cbn [a_nPad a_padWidth a_padHeight a_rowHeight a_left a_right]. destruct (Req_EM_T 0 0); [reflexivity|lra]. Qed.
Lemma hang_built : exists l, built_d 0 4 1 [CAdd hang_args] l /\ expected_rows_d 0 4 [CAdd hang_args] = [hang_row; hang_row].
Proof.
  rewrite <- hang_srow. apply one_add; try (dint 0%Z); try (dint 4%Z); try (dint 1%Z).
  - cbn. unfold h12. repeat split; try lra; lia.
  - cbn. repeat split; try (dint 0%Z); try apply h12_double; try lia. apply (double_frac 1 (-1)); [cbn [powerRZ]; simpl; lra|reflexivity|lia].
  - rewrite hang_srow. unfold width_fits_d. change (to_double (to_double (4 - s_right hang_row) - to_double (0 + s_left hang_row))) with (rounded_width 0 4 plain_row).
    rewrite plain_width. cbn [hang_row s_n s_padW]. apply rnd_up; [dint 4%Z|lra].
  - rewrite hang_srow. unfold height_fits. cbn. lra.
Qed.
Lemma hang_sound : sound_row 0 4 hang_row.
Proof. split; [cbn; lra|]. change (rounded_width 0 4 hang_row) with (rounded_width 0 4 plain_row). rewrite plain_width. split; apply big_not_tiny; cbn; unfold h12; lra. Qed.
Lemma edge_12 : to_double (1 + h12) = y22.
Proof. unfold h12, y22. apply (rnd_is 4953959590107546 2251799813685248 51); [lia|lia|reflexivity|near]. Qed.
Lemma c0_12 : to_double (1 + h12 / 2) = 7205759403792794 / 4503599627370496.
Proof. unfold h12. apply (rnd_is 7205759403792794 4503599627370496 52); [lia|lia|reflexivity|near]. Qed.
Lemma c1_12 : to_double (y22 + h12 / 2) = 6305039478318695 / 2251799813685248.
Proof. unfold h12, y22. apply (rnd_is 6305039478318695 2251799813685248 51); [lia|lia|reflexivity|near]. Qed.
Lemma hang_between : between_rows 1 [hang_row; hang_row] y22 0.
Proof.
  exists hang_row, hang_row. split; [reflexivity|]. split; [reflexivity|].
  unfold row_centre. cbn [edge hang_row s_h]. rewrite edge_12, c0_12, c1_12. split.
  - rewrite rnd_id; [unfold h12, y22; lra|]. apply (double_frac 2702159776422298 (-52)); [unfold y22, powerRZ; simpl; lra|reflexivity|lia].
  - rewrite rnd_id; [unfold h12, y22; lra|]. apply (double_frac 1351079888211149 (-51)); [unfold y22, powerRZ; simpl; lra|reflexivity|lia].
Qed.
Lemma hang_top : top_edge 1 [hang_row; hang_row] = to_double (y22 + h12).
Proof. unfold top_edge. cbn [List.length edge hang_row s_h]. now rewrite edge_12. Qed.
Lemma hang_clamp : clampR 1 (top_edge 1 [hang_row; hang_row]) y22 = y22.
Proof.
  rewrite hang_top. assert (y22 <= to_double (y22 + h12)) by (apply rnd_lo; [apply y22_double|unfold h12; lra]).
  unfold clampR, Rmax, Rmin. unfold y22 in *. destruct (Rle_dec _ _), (Rle_dec _ _); lra.
Qed.
Lemma hang_sizes : within 4 1 (1 + heights [hang_row; hang_row]) /\ 64 * tol_y 2 4 <= h12.
Proof.
  split; [split; cbn; unfold h12; apply Rabs_le; lra|]. unfold tol_y, ulp1, h12. cbn [INR]. lra.
Qed.
Lemma rect_hang : exists l, built_d 0 4 1 [CAdd hang_args] l /\ forall fuel x, is_double x -> dgetNearestPad fuel l x y22 = None.
Proof.
  destruct hang_built as (l & HB & HE). exists l. split; [exact HB|]. intros fuel x DX.
  pose proof (rect_equal_rows_ends 0 4 1 _ l h12 4 HB) as T. rewrite HE in T. cbv zeta in T. destruct hang_sizes as (S1 & S2).
  apply (T ltac:(discriminate) ltac:(split; [cbn; lia|repeat constructor; cbn; lia]) ltac:(repeat constructor) ltac:(repeat (apply Forall_cons; [exact hang_sound|]); apply Forall_nil)
    ltac:(repeat constructor) S1 S2 x y22 DX y22_double).
  exists 0%nat. rewrite hang_clamp. exact hang_between.
Qed.

(** three pads on [0,1]; the last double below 1 *)
Definition edge_args : add_args := mkAdd 1 3 (1/4) 1 0 0 0.
Definition edge_row : srow := mkS 3 (1/4) 1 1 0 0.
Definition x_last : R := 9007199254740991 / 9007199254740992.
Lemma x_last_double : is_double x_last.
Proof. apply (double_frac 9007199254740991 (-53)); [unfold x_last, powerRZ; simpl; lra|reflexivity|lia]. Qed.
Lemma edge_srow : srow_of edge_args = edge_row.
Proof. unfold srow_of, asked_height, edge_args, edge_row. cbn [a_nPad a_padWidth a_padHeight a_rowHeight a_left a_right]. destruct (Req_EM_T 0 0); [reflexivity|lra]. Qed.
Lemma edge_width : rounded_width 0 1 edge_row = 1.
Proof. unfold rounded_width, edge_row. cbn [s_right s_left]. rewrite Rminus_0_r, Rplus_0_r, rnd_0, (rnd_id 1), Rminus_0_r by (dint 1%Z). apply rnd_id. dint 1%Z. Qed.
Lemma edge_built : exists l, built_d 0 1 0 [CAdd edge_args] l /\ expected_rows_d 0 1 [CAdd edge_args] = [edge_row].
Proof.
  rewrite <- edge_srow. apply one_add; try (dint 0%Z); try (dint 1%Z).
  - cbn. repeat split; try lra; lia.
  - cbn. repeat split; try (dint 0%Z); try (dint 1%Z); try lia. apply (double_frac 1 (-2)); [cbn [powerRZ]; simpl; lra|reflexivity|lia].
  - rewrite edge_srow. unfold width_fits_d. change (to_double (to_double (1 - s_right edge_row) - to_double (0 + s_left edge_row))) with (rounded_width 0 1 edge_row).
    rewrite edge_width. cbn [edge_row s_n s_padW]. apply rnd_up; [dint 1%Z|lra].
  - rewrite edge_srow. unfold height_fits. cbn. lra.
Qed.
Lemma edge_sound : sound_row 0 1 edge_row.
Proof. split; [cbn; lra|]. rewrite edge_width. split; apply big_not_tiny; cbn; lra. Qed.
Lemma third : to_double (1 / 3) = 6004799503160661 / 18014398509481984.
Proof. apply (rnd_is 6004799503160661 18014398509481984 54); [lia|lia|reflexivity|near]. Qed.
Lemma rect_edge_throws : exists l, built_d 0 1 0 [CAdd edge_args] l /\
  forall fuel, (1 <= fuel)%nat -> exists msg, dgetNearestPad fuel l x_last (1/2) = Some (Throw (EOutOfRange msg)).
Proof.
  destruct edge_built as (l & HB & HE). exists l. split; [exact HB|]. intros fuel Hf. destruct fuel as [|f]; [lia|].
  destruct (built_drep _ _ _ _ _ HB) as (D0 & D1 & D2 & rp & HR). rewrite HE in HR.
  assert (TE : top_edge 0 [edge_row] = 1) by (unfold top_edge; cbn [List.length edge edge_row s_h]; rewrite Rplus_0_l; apply rnd_id; dint 1%Z).
  assert (D12 : is_double (1 / 2)) by (apply (double_frac 1 (-1)); [simpl; lra|reflexivity|lia]).
  assert (CE : dcentre 0 [edge_row] 0 edge_row = 1 / 2).
  { unfold dcentre, hh, fadd, fdiv. cbn [edge edge_row s_h]. rewrite (rnd_id (1 / 2)) by exact D12. rewrite Rplus_0_l. now apply rnd_id. }
  assert (YC : clampR 0 (top_edge 0 [edge_row]) (1 / 2) = 1 / 2) by (rewrite TE; unfold clampR, Rmax, Rmin; destruct (Rle_dec _ _), (Rle_dec _ _); lra).
  assert (XC : clampR 0 1 x_last = x_last) by (unfold clampR, Rmax, Rmin, x_last; destruct (Rle_dec _ _), (Rle_dec _ _); lra).
  assert (GZ : dguess l (1 / 2) = 0%Z).
  { pose proof (guess_safe 0 1 0 [edge_row] rp l HR ltac:(cbn; lia) (1 / 2) D2 ltac:(rewrite TE; dint 1%Z) ltac:(rewrite TE; lra) ltac:(rewrite TE; lra) ltac:(cbn; lia)) as G. cbn [List.length Z.of_nat] in G. lia. }
  assert (F1 : fsub (top_edge 0 [edge_row]) 0 = 1) by (rewrite TE; unfold fsub; rewrite Rminus_0_r; apply rnd_id; dint 1%Z).
  rewrite (nearest_some 0 1 0 [edge_row] rp l HR ltac:(rewrite TE; lra) ltac:(lra) (S f) x_last (1 / 2) 0%Z).
  2:{ rewrite F1. lra. }
  2:{ rewrite YC, GZ. reflexivity. }
  2:{ rewrite YC, GZ. apply (step_accept 0 1 0 [edge_row] rp l HR ltac:(repeat constructor) 0 edge_row (1 / 2) f eq_refl).
      rewrite CE. unfold fsub. replace (1 / 2 - 1 / 2) with 0 by ring. rewrite rnd_0, Rabs_R0. unfold hh. cbn [edge_row s_h]. apply rnd_nonneg. lra. }
  unfold sub. pose proof (drow_nth 0 1 0 [edge_row] rp l HR 0 edge_row eq_refl) as DN. cbn [Z.of_nat] in DN. rewrite DN. cbn [rbind].
  rewrite XC. unfold dpad_in_row. rewrite (dr_e0 _ _ _ _ _ _ HR), (dr_e1 _ _ _ _ _ _ HR). cbn [drow LeftOffset RightOffset WidthPerPad NPad edge_row s_left s_right s_n].
  unfold fadd, fsub. rewrite Rplus_0_r, rnd_0, !Rminus_0_r, (rnd_id 1) by (dint 1%Z). rewrite (rnd_id x_last x_last_double).
  assert (DW : dwidth 0 1 edge_row = 1) by exact edge_width. rewrite DW, third.
  assert (Rleb x_last 0 = false) as -> by (apply Rleb_false; unfold x_last; lra).
  assert (Rleb 1 x_last = false) as -> by (apply Rleb_false; unfold x_last; lra).
  assert (Reqb (6004799503160661 / 18014398509481984) 0 = false) as -> by (apply Reqb_false; lra).
  assert (Q : fdiv x_last (6004799503160661 / 18014398509481984) = 3).
  { unfold fdiv, x_last. rewrite (rnd_is 6755399441055744 2251799813685248 51); [lra|lia|lia|reflexivity|near]. }
  rewrite Q. unfold to_int. change 3 with (IZR 3) at 1. rewrite Ztrunc_IZR.
  destruct (dindex_throws 0 1 0 [edge_row] rp l 0 edge_row HR ltac:(split; [cbn; lia|repeat constructor; cbn; lia]) eq_refl) as (msg & M).
  exists msg. cbn [Z.of_nat edge_row s_n] in M. cbn. rewrite M. reflexivity.
Qed.
