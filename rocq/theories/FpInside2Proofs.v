From Coq Require Import ZArith Reals Lia Lra Psatz List Bool.
From Flocq Require Import Core.
From Verif Require Import Base RBase DiskBase NumModel NumSpec FpModel FpProofs DiskSpec DiskProofs FpsModel FpZpModel FpZpProofs FpFpaModel FpFpaProofs FpFpsModel FpFpsSpec FpFpsProofs FpVdProofs FpInside2Model FpInside2Spec.
Import ListNotations.
Open Scope R_scope.

Lemma made_rest a l : ring a -> fps_made_d a l -> 0 < fa_padHeight a /\ 0 < fa_padWidth a /\ f_rMax l = fa_rMax a /\ f_padHeight l = fa_padHeight a /\ f_padWidth l = fa_padWidth a.
Proof.
  intros (R1 & R2 & _) (fuel & E). unfold new_fps_d in E. unfold Rleb at 1 2 in E. destruct (Rle_dec (fa_padHeight a) 0) as [?|P]; [discriminate|]. destruct (Rle_dec (fa_padWidth a) 0) as [?|Q]; [discriminate|]. cbn [orb] in E. rewrite no_turn2 in E by (unfold two_pi in *; lra). injection E as E. unfold to_int in E.
  set (nr := Ztrunc _) in *. destruct (int_okb nr); [|discriminate]. cbn [rbind] in E. set (n := if (nr <? fa_nRow a)%Z then nr else if (0 <? fa_nRow a)%Z then fa_nRow a else nr) in *.
  destruct (Z.ltb_spec n 0) as [N|N]; [discriminate|]. destruct (fps_rows_d _ _ _ _ _ _ _) as [rows| |] eqn:ER; try discriminate. cbn [rmap] in E. injection E as <-. cbn. repeat split; lra.
Qed.
(** a computed distance against a computed bound *)
Lemma band x c c0 K H m e : Rabs (c - c0) <= e -> Rabs (K - H) <= e -> Rabs (x - c) <= m -> u64 * m + ty <= e ->
  (Rabs (fsub x c) <= K -> Rabs (x - c0) <= H + 3 * e) /\ (Rabs (x - c0) <= H - 3 * e -> Rabs (fsub x c) <= K).
Proof.
  intros C KH M E. pose proof (double_abs (x - c)) as D. fold (fsub x c) in D. set (y := fsub x c) in *. clearbody y. assert (u64 * Rabs (x - c) <= u64 * m) by (apply Rmult_le_compat_l; [unfold u64; lra|exact M]).
  assert (D' : Rabs (y - (x - c)) <= e) by lra. apply Rabs_le_inv in C, KH, D'. split; intros X; apply Rabs_le_inv in X; apply Rabs_le; lra.
Qed.

Lemma inside_fps a l i np j r phi fuel : ring a -> fps_made_d a l -> rows_ok a l -> sizes_ok a l -> (0 <= i < 65536)%Z -> row_has l i np -> (0 <= j < np)%Z -> (np <= 65536)%Z ->
  0 <= phi <= two_pi -> exists b, fps_isInsidePad_d fuel l r phi (code i j) = Some (Ok b) /\
  (b = true -> fa_rMin a <= r <= fa_rMax a /\ on_pad_area (/ 1000000) a l i np j r phi) /\ (fa_rMin a <= r <= fa_rMax a -> on_pad_area (- / 1000000) a l i np j r phi -> b = true).
Proof.
  intros RG MD RO (B & PH & G & PI') I RH J NP PHI. pose proof (made_rep a l RG MD) as F. destruct (made_rest a l RG MD) as (H1 & H2 & H3 & H4 & H5). pose proof (fr_len a l F) as FL.
  destruct (row_has_inv a l i np F (proj1 RO) ltac:(lia) ltac:(lia) RH) as (IN & row & ER & EN). destruct (row_values a l i row F ltac:(lia) ER) as (V1 & V2 & _).
  pose proof (centre_rel a l i RG F RO ltac:(lia)) as C. cbn zeta in C. rewrite <- V1 in C. fold (mid_radius a l i) in C.
  pose proof (pads_fit a l i np RG MD RO PI' ltac:(lia) ltac:(lia) RH ltac:(lia)) as (FIT & _). cbv zeta in FIT. fold (mid_radius a l i) in FIT.
  assert (U : 0 < u64 <= / 1000000000000000) by (unfold u64; lra). assert (TY : 0 <= ty <= / 1000000000000000000000000000000) by (unfold ty; lra).
  destruct RG as (R1 & R2 & R3). destruct RO as (RO1 & RO2). assert (I0 : 0 <= IZR i) by (apply IZR_le; lia).
  assert (EM : mid_radius a l i <= fa_rMax a).
  { unfold mid_radius. assert (EH : fa_rMax a = fa_rMin a + IZR (f_nRow l) * row_h a l) by (unfold row_h; rewrite FL; field; apply not_0_IZR; lia). rewrite EH. apply Rplus_le_compat_l, Rmult_le_compat_r; [lra|].
    assert (IZR i + 1 <= IZR (f_nRow l)) by (rewrite <- plus_IZR; apply IZR_le; lia). lra. }
  assert (E0 : / 2000 <= mid_radius a l i) by (unfold mid_radius; nra).
  unfold on_pad_area. cbv zeta. set (e := mid_radius a l i) in *. clearbody e. set (h := row_h a l) in *. clearbody h. set (rc := f_RCenter row) in *. assert (ERC : f_RCenter row = rc) by reflexivity. clearbody rc.
  assert (CR : Rabs (rc - e) <= h / 5000000). { assert (0 <= u64 * e <= u64 * (100000000 * h)) by (split; [apply Rmult_le_pos; lra|apply Rmult_le_compat_l; lra]). apply Rabs_le. unfold u64 in *. lra. }
  set (w := fa_phiMax a / IZR np) in *. assert (NP1 : 1 <= IZR np <= 65536) by (split; apply IZR_le; lia). assert (EW : fa_phiMax a = w * IZR np) by (unfold w; field; lra).
  assert (HW : / 100000000 <= w). { apply Rmult_le_reg_r with (IZR np); [lra|]. rewrite <- EW. apply Rle_trans with (/ 100000000 * 65536); [apply Rmult_le_compat_l; lra|lra]. }
  assert (WP : fa_phiMax a <= 65536 * w) by (rewrite EW; nra). assert (J0 : 0 <= IZR j) by (apply IZR_le; lia). assert (J1 : IZR j + 1 <= IZR np) by (rewrite <- plus_IZR; apply IZR_le; lia).
  (* the width *)
  assert (WW : 0 <= fa_padWidth a / e <= 2 * w).
  { split; [apply Rmult_le_pos; [lra|]; left; apply Rinv_0_lt_compat; lra|]. apply Rmult_le_reg_r with (e * IZR np); [nra|]. replace (fa_padWidth a / e * (e * IZR np)) with (IZR np * fa_padWidth a) by (field; lra). replace (2 * w * (e * IZR np)) with (2 * (e * fa_phiMax a)) by (rewrite EW; ring).
    assert (IZR np * fa_padWidth a <= IZR np * (fa_padWidth a + fa_padGap a)) by (apply Rmult_le_compat_l; lra). assert (0 <= e * fa_phiMax a) by (apply Rmult_le_pos; lra). lra. }
  assert (RC0 : / 4000 <= rc) by (unfold u64 in *; lra).
  assert (WR : Rabs (fa_padWidth a / rc - fa_padWidth a / e) <= 30 * u64 * w).
  { replace (fa_padWidth a / rc - fa_padWidth a / e) with (fa_padWidth a / e * ((e - rc) / rc)) by (field; lra). rewrite Rabs_mult, Rabs_pos_eq by lra.
    assert (Q : Rabs ((e - rc) / rc) <= 15 * u64). { apply Rabs_le. assert (X : (e - rc) / rc * rc = e - rc) by (field; lra). split; apply Rmult_le_reg_r with rc; try lra; rewrite X; unfold u64 in *; lra. }
    apply Rle_trans with (2 * w * (15 * u64)); [|lra]. apply Rmult_le_compat; try lra. apply Rabs_pos. }
  apply Rabs_le_inv in WR. set (wt := fa_padWidth a / e) in *. clearbody wt. pose proof (double_abs (fa_padWidth a / rc)) as WD. fold (fdiv (fa_padWidth a) rc) in WD. set (wr := fa_padWidth a / rc) in *. clearbody wr. set (wd := fdiv (fa_padWidth a) rc) in *.
  assert (UW : 0 <= u64 * w <= w / 1000000000000000) by (split; [apply Rmult_le_pos; lra|rewrite Rmult_comm; apply Rmult_le_compat_l; lra]).
  assert (WRM : Rabs wr <= 3 * w) by (apply Rabs_le; lra). assert (WD' : Rabs (wd - wr) <= w / 100000000) by (assert (u64 * Rabs wr <= u64 * (3 * w)) by (apply Rmult_le_compat_l; lra); lra). apply Rabs_le_inv in WD'.
  pose proof (double_abs (1 / 2 * wd)) as KD. fold (fmul (1 / 2) wd) in KD. set (kd := fmul (1 / 2) wd) in *. assert (WDM : Rabs (1 / 2 * wd) <= 3 * w) by (apply Rabs_le; lra).
  assert (KW : Rabs (kd - wt / 2) <= w / 5000000). { assert (u64 * Rabs (1 / 2 * wd) <= u64 * (3 * w)) by (apply Rmult_le_compat_l; lra). assert (X : Rabs (kd - 1 / 2 * wd) <= w / 100000000) by lra. apply Rabs_le_inv in X. apply Rabs_le. lra. }
  (* the centre *)
  assert (PW : (1 - (0 + 2) * u64) * w <= to_double w <= (1 + (0 + 2) * u64) * w) by (apply (rel_round w w 0); lra).
  assert (JW : / 1000000000 <= (IZR j + 1 / 2) * w) by nra.
  assert (PC : (1 - (2 + 2) * u64) * ((IZR j + 1 / 2) * w) <= to_double ((IZR j + 1 / 2) * to_double w) <= (1 + (2 + 2) * u64) * ((IZR j + 1 / 2) * w)) by (apply (rel_round _ _ 2); [lra|lra|split; nra]).
  assert (JM : (IZR j + 1 / 2) * w <= 65536 * w) by (apply Rmult_le_compat_r; lra).
  assert (PCR : Rabs (to_double ((IZR j + 1 / 2) * to_double w) - (IZR j + 1 / 2) * w) <= w / 5000000). { assert (0 <= u64 * ((IZR j + 1 / 2) * w) <= u64 * (65536 * w)) by (split; [apply Rmult_le_pos; lra|apply Rmult_le_compat_l; lra]). apply Rabs_le. lra. }
  (* the height *)
  pose proof (double_abs (1 / 2 * fa_padHeight a)) as HD. fold (fmul (1 / 2) (fa_padHeight a)) in HD. rewrite Rabs_pos_eq with (x := 1 / 2 * _) in HD by lra. set (kh := fmul (1 / 2) (fa_padHeight a)) in *.
  assert (KH : Rabs (kh - fa_padHeight a / 2) <= h / 5000000). { assert (u64 * (1 / 2 * fa_padHeight a) <= u64 * (100000000 * h)) by (apply Rmult_le_compat_l; lra). replace (fa_padHeight a / 2) with (1 / 2 * fa_padHeight a) by lra. unfold u64 in *. lra. }
  unfold fps_isInsidePad_d. rewrite (fr_rMin a l F), H3, H4.
  destruct (Rlt_dec r (fa_rMin a)) as [O|O]; [exists false; rewrite (ltb_yes r) by lra; split; [reflexivity|split; [discriminate|lra]]|]. rewrite (ltb_no r) by lra.
  destruct (Rlt_dec (fa_rMax a) r) as [O'|O']; [exists false; rewrite ltb_yes by lra; split; [reflexivity|split; [discriminate|lra]]|]. rewrite ltb_no by lra. cbn [orb]. rewrite no_turn1 by exact PHI.
  assert (CE : fps_getPadCenter_d l (code i j) = Ok (rc, to_double ((IZR j + 1 / 2) * to_double w))).
  { unfold fps_getPadCenter_d. rewrite code_row, code_pad by lia. unfold sub. rewrite ER. cbn [rbind]. rewrite EN. destruct (Z.eqb_spec np 0); [lia|]. rewrite V2, EN, ERC, half_at by lia. reflexivity. }
  assert (WE : fps_getPadWidth_d l (code i j) = Ok wd). { unfold fps_getPadWidth_d. rewrite code_row by lia. rewrite ER, H5, ERC. unfold Reqb. destruct (Req_EM_T _ _) as [X|_]; [exfalso; lra|]. reflexivity. }
  rewrite CE, WE. cbn [rbind rmap fst snd]. fold kd kh. set (pc := to_double ((IZR j + 1 / 2) * to_double w)) in *. clearbody pc kd kh.
  destruct (band r rc e kh (fa_padHeight a / 2) (200000000 * h) (h / 5000000) CR KH) as (A1 & A2); [apply Rabs_le_inv in CR; apply Rabs_le; lra|unfold u64; lra|].
  destruct (band phi pc ((IZR j + 1 / 2) * w) kd (wt / 2) (600000000 * w) (w / 5000000) PCR KW) as (B1 & B2); [apply Rabs_le_inv in PCR; apply Rabs_le; unfold two_pi in *; lra|unfold u64; lra|].
  eexists. split; [reflexivity|]. rewrite andb_true_iff. unfold Rleb. split.
  - intros (X & Y). destruct (Rle_dec _ _) as [X'|]; [|discriminate]. destruct (Rle_dec _ _) as [Y'|] in Y; [|discriminate]. specialize (A1 X'). specialize (B1 Y'). split; [lra|]. split; lra.
  - intros _ (X & Y). specialize (A2 ltac:(lra)). specialize (B2 ltac:(lra)). split; [destruct (Rle_dec _ _); [reflexivity|contradiction]|]. destruct (Rle_dec _ _); [reflexivity|contradiction].
Qed.
