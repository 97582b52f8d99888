(** C101: the number of pads of a layout is an int. *)
From Coq Require Import ZArith List Bool Reals Lra Lia.
From Verif Require PropFps.
From Verif Require Import Base RBase DiskBase RectModel VdModel FpaModel FpsModel RectSpec DiskSpec RectProofs RectProofs5 PropRect VdProofs VdProofs2 VdProofs3 VdProofs4 VdProofs5 PropVd IntPadModel IntPadSpec IntPadProofs.
Import ListNotations.
Open Scope R_scope.

(** Rectangular layouts: a history of calls has defined behaviour exactly if the number of pads of all rows, with those that were refused because the row is lower than the pads, is at most the largest int;
    the layout is then the one of the other theorems, and getNPads is that number. *)
Theorem C101_rect : forall x0 x1 y0 h, Forall legal_call h -> let n := (total_pads (expected_rows x0 x1 h) + refused_pads x0 x1 h)%Z in
  ((n <= int_max)%Z -> exists l, do_calls_i (new_rect x0 x1 y0) h = Some l /\ built x0 x1 y0 h l /\ getNPads l = n) /\
  ((int_max < n)%Z -> do_calls_i (new_rect x0 x1 y0) h = None).
Proof.
  intros x0 x1 y0 h L n. destruct (do_calls_rep x0 x1 y0 h _ _ _ _ (rep_new x0 x1 y0) L) as [l [Hl _]]. assert (B : built x0 x1 y0 h l) by (split; auto).
  pose proof (C08_rows_tile x0 x1 y0 h l B) as (_ & _ & N & _). fold n in N. rewrite calls_clip by (cbn; unfold int_max; lia). rewrite Hl. unfold getNPads in *. cbn [oclip]. rewrite N. split; intros H.
  - rewrite (proj2 (Z.leb_le _ _) H). exists l. auto.
  - now rewrite (proj2 (Z.leb_gt _ _) H).
Qed.
Print Assumptions C101_rect.

(** Versatile disk layouts: the same. *)
Theorem C101_vd : forall rMin h l, vd_made rMin h l ->
  ((vd_getNPads l <= int_max)%Z -> vd_run_i (new_vd rMin) h = Some l) /\ ((int_max < vd_getNPads l)%Z -> vd_run_i (new_vd rMin) h = None).
Proof.
  intros rMin h l M. unfold vd_made in M. rewrite vd_clip by (cbn; unfold int_max; lia). rewrite M. unfold vd_getNPads. cbn [vclip]. split; intros H.
  - now rewrite (proj2 (Z.leb_le _ _) H).
  - now rewrite (proj2 (Z.leb_gt _ _) H).
Qed.
Print Assumptions C101_vd.
(** If every addRow call was accepted that is the number of pads of all rows. *)
Theorem C101_vd_accepted : forall rMin h rows top, 0 <= rMin -> all_accepted rMin h -> vd_story rMin h rows top ->
  ((pads_of rows <= int_max)%Z -> exists l, vd_run_i (new_vd rMin) h = Some l /\ vd_made rMin h l /\ vd_getNPads l = pads_of rows) /\
  ((int_max < pads_of rows)%Z -> vd_run_i (new_vd rMin) h = None).
Proof.
  intros rMin h rows top R0 A S. destruct (C18_vd_every_history rMin h R0) as (l & _ & _ & M & _). pose proof (C18_vd_count rMin h R0 A l rows top M S) as N. destruct (C101_vd rMin h l M) as [X Y]. rewrite N in X, Y. split; [|exact Y]. intros H. exists l. auto.
Qed.
Print Assumptions C101_vd_accepted.

(** Pads of fixed angle: the constructor. *)
Theorem C101_fpa : forall a, (0 <= pa_nRow a)%Z -> (0 <= pa_nPads a)%Z ->
  let call := new_fpa_i (pa_rMin a) (pa_rMax a) (pa_nRow a) (pa_phiMin a) (pa_phiMax a) (pa_nPads a) in let n := (pa_nRow a * pa_nPads a)%Z in
  ((n <= int_max)%Z -> exists l, call = Ok l /\ fpa_made a [] l /\ fpa_getNPads l = n) /\ ((int_max < n)%Z -> call = UB).
Proof.
  intros a R P call n. unfold call, new_fpa_i. destruct (Z.ltb_spec (pa_nRow a) 0); [lia|]. rewrite prod_ok by nia. rewrite Z.add_0_l. fold n. split; intros H0.
  - rewrite (proj2 (Z.leb_le _ _) H0). eexists. split; [reflexivity|]. split; [|reflexivity]. unfold fpa_made, new_fpa. destruct (Z.ltb_spec (pa_nRow a) 0); [lia|]. eexists. split; reflexivity.
  - now rewrite (proj2 (Z.leb_gt _ _) H0).
Qed.
Print Assumptions C101_fpa.

(** Pads of fixed size: the constructor, which adds up the pads of the rows. *)
Theorem C101_fps : forall a l, fps_sane a -> fps_made a [] l ->
  let call := new_fps_i (fa_rMin a) (fa_rMax a) (fa_padHeight a) (fa_padWidth a) (fa_nRow a) (fa_padGap a) (fa_phiMax a) in
  ((fps_getNPads l <= int_max)%Z -> call = Ok l) /\ ((int_max < fps_getNPads l)%Z -> call = UB).
Proof.
  intros a l S (l0 & E & [= <-]) call. unfold call. rewrite (fps_i_ok a l0 S E). unfold fps_getNPads. split; intros H.
  - now rewrite (proj2 (Z.leb_le _ _) H).
  - now rewrite (proj2 (Z.leb_gt _ _) H).
Qed.
Print Assumptions C101_fps.

(** Layouts whose pads all have different indices can be too large: 32768 rows of 65536 pads. *)
Definition many : add_args := mkAdd 32768 65536 0 1 0 0 0.
Lemma total_repeat s : forall k, total_pads (repeat s k) = (Z.of_nat k * s_n s)%Z.
Proof. induction k as [|k IH]; [reflexivity|]. cbn [repeat total_pads]. rewrite IH, Nat2Z.inj_succ. ring. Qed.
Lemma many_rows : expected_rows 0 1 [CAdd many] = repeat (srow_of many) (Z.to_nat 32768).
Proof.
  unfold expected_rows, expected. cbn [fold_left expect1 fst snd]. destruct (width_fits_dec 0 1 (srow_of many)) as [W|W]; [|exfalso; apply W; unfold width_fits, srow_of, many; cbn; lra].
  destruct (height_fits_dec (srow_of many)) as [H|H]; [reflexivity|]. exfalso; apply H; unfold height_fits, srow_of, asked_height, many; cbn. destruct (Req_EM_T 0 0); lra.
Qed.
Lemma many_legal : Forall legal_call [CAdd many].
Proof. repeat constructor; cbn; lia || lra. Qed.
Lemma many_refused : refused_pads 0 1 [CAdd many] = 0%Z.
Proof.
  cbn [refused_pads refused_for_height]. destruct (width_fits_dec 0 1 (srow_of many)); [|reflexivity]. destruct (height_fits_dec (srow_of many)) as [H|H]; [reflexivity|]. exfalso; apply H; unfold height_fits, srow_of, asked_height, many; cbn. destruct (Req_EM_T 0 0); lra.
Qed.
Theorem C101_rect_index_refuted : exists x0 x1 y0 h, Forall legal_call h /\ indexable (expected_rows x0 x1 h) /\ refused_pads x0 x1 h = 0%Z /\ do_calls_i (new_rect x0 x1 y0) h = None.
Proof.
  exists 0, 1, 0, [CAdd many]. split; [exact many_legal|]. split; [|split; [exact many_refused|]].
  - rewrite many_rows. split; [rewrite repeat_length; lia|]. apply Forall_forall. intros s S. apply repeat_spec in S. subst. cbn. lia.
  - apply (proj2 (C101_rect 0 1 0 _ many_legal)). rewrite many_rows, many_refused, total_repeat. rewrite Z2Nat.id by lia. reflexivity.
Qed.
Print Assumptions C101_rect_index_refuted.
Theorem C101_fpa_index_refuted : exists a, fpa_sane a /\ new_fpa_i (pa_rMin a) (pa_rMax a) (pa_nRow a) (pa_phiMin a) (pa_phiMax a) (pa_nPads a) = UB.
Proof.
  exists (mkFpaArgs 1 2 32768 0 1 65536). split; [|reflexivity]. pose proof PI2_1. unfold fpa_sane, PI2 in *. cbn [pa_rMin pa_rMax pa_nRow pa_phiMin pa_phiMax pa_nPads]. split; [lra|]. split; [lia|]. split; [lra|lia].
Qed.
Print Assumptions C101_fpa_index_refuted.

(** ** examples: a history with a repetition and a refused row; two rows of a versatile layout *)
Example few : exists l, do_calls_i (new_rect 0 4 0) [CAdd (mkAdd 2 4 (9/10) 2 0 0 0); CRepeat 3; CAdd (mkAdd 1 5 (1/2) 2 1 0 0)] = Some l /\ getNPads l = 29%Z.
Proof.
  assert (L : Forall legal_call [CAdd (mkAdd 2 4 (9/10) 2 0 0 0); CRepeat 3; CAdd (mkAdd 1 5 (1/2) 2 1 0 0)]) by (repeat constructor; cbn; lia || lra).
  assert (W1 : width_fits 0 4 (srow_of (mkAdd 2 4 (9/10) 2 0 0 0))) by (unfold width_fits, srow_of; cbn; lra). assert (W2 : width_fits 0 4 (srow_of (mkAdd 1 5 (1/2) 2 1 0 0))) by (unfold width_fits, srow_of; cbn; lra).
  assert (H1 : height_fits (srow_of (mkAdd 2 4 (9/10) 2 0 0 0))) by (unfold height_fits, srow_of, asked_height; cbn; destruct (Req_EM_T 0 0); lra). assert (H2 : ~ height_fits (srow_of (mkAdd 1 5 (1/2) 2 1 0 0))) by (unfold height_fits, srow_of, asked_height; cbn; destruct (Req_EM_T 1 0); lra).
  destruct (C101_rect 0 4 0 _ L) as [X _]. revert X. unfold expected_rows, expected. cbn [fold_left expect1 fst snd refused_pads refused_for_height].
  destruct (width_fits_dec _ _ (srow_of (mkAdd 2 4 (9/10) 2 0 0 0))); [|tauto]. destruct (height_fits_dec (srow_of (mkAdd 2 4 (9/10) 2 0 0 0))); [|tauto]. destruct (width_fits_dec _ _ (srow_of (mkAdd 1 5 (1/2) 2 1 0 0))); [|tauto]. destruct (height_fits_dec (srow_of (mkAdd 1 5 (1/2) 2 1 0 0))); [tauto|].
  intros X. destruct X as (l & E & _ & N); [apply Z.leb_le; reflexivity|]. exists l. split; [exact E|]. rewrite N. reflexivity.
Qed.
Example vd_two : exists l, vd_run_i (new_vd 1) [VAdd vd_g1; VAdd vd_g2] = Some l /\ vd_getNPads l = 2%Z.
Proof.
  assert (R1 : 0 <= 1) by lra. destruct (C18_vd_every_history 1 [VAdd vd_g1; VAdd vd_g2] R1) as (l & rows & top & M & S & _). pose proof (C18_vd_count 1 _ R1 accepted_twice l rows top M S) as N.
  assert (P : pads_of rows = 2%Z).
  { assert (G1 : vd_good 1 vd_g1) by (unfold vd_good, vd_g1; cbn; pose proof PI2_3_2; unfold PI2 in *; split; [lia|]; split; [lra|]; split; [lra|]; split; [lra|]; split; [lia|lra]).
    assert (G2 : vd_good (1 + IZR 1 * 2) vd_g2) by (unfold vd_good, vd_g2; cbn; pose proof PI2_3_2; unfold PI2 in *; split; [lia|]; split; [lra|]; split; [lra|]; split; [lra|]; split; [lia|lra]).
    pose proof (vs_add 1 [VAdd vd_g1] _ _ vd_g2 (vs_add 1 [] [] 1 vd_g1 (vs_new 1) G1) G2) as S'. cbn [app] in S'. destruct (story_fun _ _ _ _ _ _ S S') as [-> _]. reflexivity. }
  destruct (C101_vd_accepted 1 _ rows top R1 accepted_twice S) as [X _]. destruct X as (l' & E & _ & N'); [rewrite P; unfold int_max; lia|]. exists l'. split; [exact E|]. now rewrite N'.
Qed.
Example fps_wedge : exists a l, fps_sane a /\ fps_made a [] l /\ (0 < fps_getNRows l)%Z.
Proof. destruct PropFps.wedge_fps as (S & l & M & _ & N & _). eauto. Qed.
