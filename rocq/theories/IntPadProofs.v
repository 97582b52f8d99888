From Coq Require Import ZArith Reals Lia Lra List Bool.
From Verif Require Import Base RBase DiskBase RectModel VdModel FpaModel FpsModel RectSpec DiskSpec DiskProofs RectProofs FpsProofs IntPadModel IntPadSpec.
Import ListNotations.
Open Scope Z_scope.

Lemma prod_ok n a b : 0 <= n -> 0 <= a * b -> int_add_prod n a b = if (n + a * b <=? int_max) then Some (n + a * b) else None.
Proof.
  intros N P. unfold int_add_prod. destruct (int_okb (a * b)) eqn:E1.
  - destruct (int_okb (n + a * b)) eqn:E2; apply int_okb_true in E1; unfold int_ok in *.
    + apply int_okb_true in E2. unfold int_ok in E2. destruct (Z.leb_spec (n + a * b) int_max); [reflexivity|unfold int_max in *; lia].
    + destruct (Z.leb_spec (n + a * b) int_max); [|reflexivity]. assert (int_okb (n + a * b) = true) by (apply int_okb_true; unfold int_ok, int_max in *; lia). congruence.
  - destruct (Z.leb_spec (n + a * b) int_max); [|reflexivity]. assert (int_okb (a * b) = true) by (apply int_okb_true; unfold int_ok, int_max in *; lia). congruence.
Qed.

(** ** rectangular layouts *)
Definition clip {A} (r : sres rect A) : sres rect A :=
  match r with SOk l _ => if _nPad l <=? int_max then r else SUB | SThrow l _ => if _nPad l <=? int_max then r else SUB | SUB => SUB end.
Definition grows {A} (n : Z) (r : sres rect A) : Prop := match r with SOk l _ | SThrow l _ => n <= _nPad l | SUB => True end.
Lemma push_npad : forall k row l, _nPad (push_rows k row l) = _nPad l.
Proof. induction k as [|k IH]; intros row l; [reflexivity|]. cbn [push_rows]. now rewrite IH. Qed.
Lemma add_grows l nr np pw ph rh lo ro : grows (_nPad l) (addRow l nr np pw ph rh lo ro).
Proof.
  unfold addRow. match goal with |- grows _ (if ?b then _ else _) => destruct b end; [exact I|]. cbv zeta. match goal with |- grows _ (if ?b then _ else _) => destruct b end; [cbn; lia|].
  assert (P : 0 <= Z.abs nr * Z.abs np) by (apply Z.mul_nonneg_nonneg; lia).
  match goal with |- grows _ (if ?b then _ else _) => destruct b end.
  - cbn [grows _nPad]. apply Z.le_sub_le_add_l. rewrite Z.sub_diag. exact P.
  - cbn [grows _nPad]. rewrite push_npad. cbn [_nPad]. apply Z.le_sub_le_add_l. rewrite Z.sub_diag. exact P.
Qed.
Lemma add_clip l nr np pw ph rh lo ro : 0 <= _nPad l <= int_max -> addRow_i l nr np pw ph rh lo ro = clip (addRow l nr np pw ph rh lo ro).
Proof.
  intros B. unfold addRow_i, addRow. cbv zeta. match goal with |- (if ?b then _ else _) = _ => destruct b end; [reflexivity|]. match goal with |- (if ?b then _ else _) = _ => destruct b end; [cbn; destruct (Z.leb_spec (_nPad l) int_max); [reflexivity|lia]|].
  rewrite prod_ok by (lia || (apply Z.mul_nonneg_nonneg; lia)). destruct (Z.leb_spec (_nPad l + Z.abs nr * Z.abs np) int_max) as [L|L]; destruct (Rltb (if Reqb rh 0 then ph else rh) ph); cbn [clip].
  - rewrite (proj2 (Z.leb_le _ _)); [reflexivity|exact L].
  - rewrite (proj2 (Z.leb_le _ _)); [reflexivity|]. cbn [_nPad]. rewrite push_npad. exact L.
  - rewrite (proj2 (Z.leb_gt _ _)); [reflexivity|exact L].
  - rewrite (proj2 (Z.leb_gt _ _)); [reflexivity|]. cbn [_nPad]. rewrite push_npad. exact L.
Qed.
Lemma inner_grows : forall n j l, grows (_nPad l) (repeat_inner n j l).
Proof.
  induction n as [|n IH]; intros j l; cbn [repeat_inner]; [cbn; lia|]. destruct (nth_error (_rows l) j) as [r|]; [|exact I].
  pose proof (add_grows l 1 (NPad r) (PadWidth r) (PadHeight r) (Height r) (LeftOffset r) (RightOffset r)) as G. destruct (addRow _ _ _ _ _ _ _ _) as [l' u|l' e|]; [|exact G|exact I].
  cbn in G. specialize (IH (S j) l'). destruct (repeat_inner n (S j) l'); cbn in *; lia || exact I.
Qed.
Lemma clip_over {A} n (r : sres rect A) : int_max < n -> grows n r -> clip r = SUB.
Proof. intros N G. destruct r as [l a|l e|]; cbn in *; [| |reflexivity]; destruct (Z.leb_spec (_nPad l) int_max); reflexivity || lia. Qed.
Lemma inner_clip : forall n j l, 0 <= _nPad l <= int_max -> repeat_inner_i n j l = clip (repeat_inner n j l).
Proof.
  induction n as [|n IH]; intros j l B; cbn [repeat_inner repeat_inner_i]; [cbn; destruct (Z.leb_spec (_nPad l) int_max); [reflexivity|lia]|]. destruct (nth_error (_rows l) j) as [r|]; [|reflexivity].
  rewrite add_clip by exact B. pose proof (add_grows l 1 (NPad r) (PadWidth r) (PadHeight r) (Height r) (LeftOffset r) (RightOffset r)) as G. destruct (addRow _ _ _ _ _ _ _ _) as [l' u|l' e|]; [|cbn [clip]; destruct (_ <=? _); reflexivity|reflexivity].
  cbn in G. cbn [clip]. destruct (Z.leb_spec (_nPad l') int_max); [apply IH; lia|]. symmetry. apply (clip_over (_nPad l')); [assumption|apply inner_grows].
Qed.
Lemma outer_grows : forall m k l, grows (_nPad l) (repeat_outer m k l).
Proof.
  induction m as [|m IH]; intros k l; cbn [repeat_outer]; [cbn; lia|]. pose proof (inner_grows k 0 l) as G. destruct (repeat_inner k 0 l) as [l' u|l' e|]; [|exact G|exact I].
  cbn in G. specialize (IH k l'). destruct (repeat_outer m k l'); cbn in *; lia || exact I.
Qed.
Lemma outer_clip : forall m k l, 0 <= _nPad l <= int_max -> repeat_outer_i m k l = clip (repeat_outer m k l).
Proof.
  induction m as [|m IH]; intros k l B; cbn [repeat_outer repeat_outer_i]; [cbn; destruct (Z.leb_spec (_nPad l) int_max); [reflexivity|lia]|].
  rewrite inner_clip by exact B. pose proof (inner_grows k 0 l) as G. destruct (repeat_inner k 0 l) as [l' u|l' e|]; [|cbn [clip]; destruct (_ <=? _); reflexivity|reflexivity].
  cbn in G. cbn [clip]. destruct (Z.leb_spec (_nPad l') int_max); [apply IH; lia|]. symmetry. apply (clip_over (_nPad l')); [assumption|apply outer_grows].
Qed.
Definition oclip (o : option rect) : option rect := match o with Some l => if _nPad l <=? int_max then Some l else None | None => None end.
Lemma call_step l c : 0 <= _nPad l <= int_max -> do_call_i l c = oclip (do_call l c).
Proof.
  intros B. destruct c as [a|n|r]; cbn [do_call_i do_call].
  - rewrite add_clip by exact B. destruct (addRow _ _ _ _ _ _ _ _); cbn [clip oclip keep]; try reflexivity; destruct (_ <=? _); reflexivity.
  - unfold repeatRows_i, repeatRows. destruct (0 <? _repeatRows l); [cbn; destruct (Z.leb_spec (_nPad l) int_max); [reflexivity|lia]|]. rewrite outer_clip by exact B.
    destruct (repeat_outer _ _ _); cbn [clip oclip keep]; try reflexivity; destruct (_ <=? _); reflexivity.
  - assert (E : forall l', keep (getPadsInRow l r) = Some l' -> _nPad l' = _nPad l). { intros l'. unfold getPadsInRow. destruct (nthZ _ _) as [[v|]|]; [intros [= <-]; reflexivity| |intros [= <-]; reflexivity]. destruct (nthZ _ _); [|intros [= <-]; reflexivity]. destruct (indices_from _ _ _ _); intros [= <-]; reflexivity. }
    change (match getPadsInRow l r with SOk l' _ => Some l' | SThrow l' _ => Some l' | SUB => None end) with (keep (getPadsInRow l r)). destruct (keep (getPadsInRow l r)) as [l'|]; [|reflexivity]. cbn. rewrite (E l' eq_refl). destruct (Z.leb_spec (_nPad l) int_max); [reflexivity|lia].
Qed.
Lemma call_grows l c l' : do_call l c = Some l' -> _nPad l <= _nPad l'.
Proof.
  destruct c as [a|n|r]; cbn [do_call].
  - match goal with |- context [addRow ?a ?b ?c ?d ?e ?f ?g ?h] => pose proof (add_grows a b c d e f g h) as G end. destruct (addRow _ _ _ _ _ _ _ _); intros [= <-]; exact G.
  - unfold repeatRows. destruct (0 <? _repeatRows l); [intros [= <-]; lia|]. match goal with |- context [repeat_outer ?a ?b ?c] => pose proof (outer_grows a b c) as G end. destruct (repeat_outer _ _ _); intros [= <-]; exact G.
  - unfold getPadsInRow. destruct (nthZ _ _) as [[v|]|]; [intros [= <-]; lia| |intros [= <-]; lia]. destruct (nthZ _ _); [|intros [= <-]; lia]. destruct (indices_from _ _ _ _); intros [= <-]; cbn; lia.
Qed.
Lemma calls_grow : forall h l l', do_calls l h = Some l' -> _nPad l <= _nPad l'.
Proof.
  induction h as [|c t IH]; intros l l'; cbn [do_calls]; [intros [= <-]; lia|]. destruct (do_call l c) as [l1|] eqn:E; [|discriminate]. intros H. apply IH in H. apply call_grows in E. lia.
Qed.
Lemma calls_clip : forall h l, 0 <= _nPad l <= int_max -> do_calls_i l h = oclip (do_calls l h).
Proof.
  induction h as [|c t IH]; intros l B; cbn [do_calls do_calls_i]; [cbn; destruct (Z.leb_spec (_nPad l) int_max); [reflexivity|lia]|].
  rewrite call_step by exact B. destruct (do_call l c) as [l1|] eqn:E; [|reflexivity]. apply call_grows in E. cbn [oclip]. destruct (Z.leb_spec (_nPad l1) int_max); [apply IH; lia|].
  destruct (do_calls l1 t) as [l2|] eqn:E2; [|reflexivity]. apply calls_grow in E2. cbn. destruct (Z.leb_spec (_nPad l2) int_max); [lia|reflexivity].
Qed.

(** ** versatile layouts *)
Definition vclip (o : option vd) : option vd := match o with Some l => if v_nPad l <=? int_max then Some l else None | None => None end.
Definition vkeeps {A} (n : Z) (r : sres vd A) : Prop := match r with SOk l _ | SThrow l _ => v_nPad l = n | SUB => True end.
Lemma vpush_keeps : forall k np rc pp rh pw ph off l, vkeeps (v_nPad l) (vd_push k np rc pp rh pw ph off l).
Proof.
  induction k as [|k IH]; intros; cbn [vd_push]; [reflexivity|]. destruct (new_vrow _ _ _ _ _ _ _ _); [|reflexivity|exact I]. match goal with |- vkeeps _ (vd_push _ ?b ?c ?d ?e ?f ?g ?h ?i) => exact (IH b c d e f g h i) end.
Qed.
Lemma vadd_step l a : 0 <= v_nPad l <= int_max -> vd_do_i l (VAdd a) = vclip (vd_do l (VAdd a)).
Proof.
  intros B. cbn [vd_do_i vd_do]. unfold vd_addRow_i, vd_addRow. assert (C : vclip (Some l) = Some l) by (cbn; destruct (Z.leb_spec (v_nPad l) int_max); [reflexivity|lia]).
  destruct (Z.leb_spec (va_nPads a) 0); [now rewrite C|]. destruct (Rltb (va_pitch a) 0); [now rewrite C|]. destruct (Rltb (va_padWidth a) 0); [now rewrite C|]. destruct (Rltb (va_pitch a) (va_padWidth a)); [now rewrite C|]. destruct (Rleb (va_height a) 0); [now rewrite C|]. destruct (Z.leb_spec (va_repeat a) 0); [now rewrite C|].
  rewrite prod_ok by nia. match goal with |- context [vd_push ?x ?b ?c ?d ?e ?f ?g ?h ?i] => pose proof (vpush_keeps x b c d e f g h i) as K; cbn [v_nPad] in K end.
  destruct (Z.leb_spec (v_nPad l + va_repeat a * va_nPads a) int_max) as [L|L]; destruct (vd_push _ _ _ _ _ _ _ _ _) as [l'|l'|]; cbn [vkeeps] in K; try reflexivity; try (destruct (rev (v_rows l')); [reflexivity|]); cbn [keep vclip v_nPad]; rewrite K; destruct (Z.leb_spec (v_nPad l + va_repeat a * va_nPads a) int_max); reflexivity || lia.
Qed.
Lemma vpads_keeps l r : vkeeps (v_nPad l) (vd_getPadsInRow l r).
Proof. unfold vd_getPadsInRow. destruct (nthZ _ _) as [[v|]|]; [reflexivity| |reflexivity]. destruct (nthZ _ _); [|reflexivity]. destruct (_ <? 0); [reflexivity|]. destruct (fill_indices _ _ _); cbn; reflexivity || exact I. Qed.
Lemma vd_step l c : 0 <= v_nPad l <= int_max -> vd_do_i l c = vclip (vd_do l c).
Proof.
  intros B. destruct c as [a|r]; [now apply vadd_step|]. cbn [vd_do_i vd_do]. pose proof (vpads_keeps l r) as K. destruct (vd_getPadsInRow l r); cbn in *; try reflexivity; rewrite K; destruct (Z.leb_spec (v_nPad l) int_max); reflexivity || lia.
Qed.
Lemma vd_grows l c l' : vd_do l c = Some l' -> v_nPad l <= v_nPad l'.
Proof.
  destruct c as [a|r]; cbn [vd_do].
  - unfold vd_addRow. destruct (Z.leb_spec (va_nPads a) 0); [intros [= <-]; lia|]. destruct (Rltb (va_pitch a) 0); [intros [= <-]; lia|]. destruct (Rltb (va_padWidth a) 0); [intros [= <-]; lia|]. destruct (Rltb (va_pitch a) (va_padWidth a)); [intros [= <-]; lia|]. destruct (Rleb (va_height a) 0); [intros [= <-]; lia|]. destruct (Z.leb_spec (va_repeat a) 0); [intros [= <-]; lia|].
    match goal with |- context [vd_push ?x ?b ?c ?d ?e ?f ?g ?h ?i] => pose proof (vpush_keeps x b c d e f g h i) as K; cbn [v_nPad] in K end.
    destruct (vd_push _ _ _ _ _ _ _ _ _) as [l1|l1|]; cbn [vkeeps] in K; [destruct (rev (v_rows l1)); [discriminate|]| |discriminate]; intros [= <-]; cbn [v_nPad]; nia.
  - pose proof (vpads_keeps l r) as K. destruct (vd_getPadsInRow l r); intros [= <-]; cbn in K; lia.
Qed.
Lemma vd_runs_grow : forall h l l', vd_run l h = Some l' -> v_nPad l <= v_nPad l'.
Proof. induction h as [|c t IH]; intros l l'; cbn [vd_run]; [intros [= <-]; lia|]. destruct (vd_do l c) as [l1|] eqn:E; [|discriminate]. intros H. apply IH in H. apply vd_grows in E. lia. Qed.
Lemma vd_clip : forall h l, 0 <= v_nPad l <= int_max -> vd_run_i l h = vclip (vd_run l h).
Proof.
  induction h as [|c t IH]; intros l B; cbn [vd_run vd_run_i]; [cbn; destruct (Z.leb_spec (v_nPad l) int_max); [reflexivity|lia]|].
  rewrite vd_step by exact B. destruct (vd_do l c) as [l1|] eqn:E; [|reflexivity]. apply vd_grows in E. cbn [vclip]. destruct (Z.leb_spec (v_nPad l1) int_max); [apply IH; lia|].
  destruct (vd_run l1 t) as [l2|] eqn:E2; [|reflexivity]. apply vd_runs_grow in E2. cbn. destruct (Z.leb_spec (v_nPad l2) int_max); [lia|reflexivity].
Qed.

(** ** pads of fixed size *)
Lemma int_sum_nonneg : forall rows n, 0 <= n <= int_max -> Forall (fun r => 0 <= f_NPad r) rows -> int_sum n rows = if n + sum_npad rows <=? int_max then Ok (n + sum_npad rows) else UB.
Proof.
  induction rows as [|r t IH]; intros n B F; cbn [int_sum sum_npad].
  - rewrite Z.add_0_r. destruct (Z.leb_spec n int_max); [reflexivity|lia].
  - inversion F; subst. assert (S : 0 <= sum_npad t) by (clear - H2; induction H2; cbn [sum_npad]; lia). rewrite Z.add_assoc. destruct (int_okb (n + f_NPad r)) eqn:E.
    + apply int_okb_true in E. unfold int_ok in E. apply IH; [unfold int_max; lia|assumption].
    + destruct (Z.leb_spec (n + f_NPad r + sum_npad t) int_max) as [L|L]; [|reflexivity]. assert (int_okb (n + f_NPad r) = true) by (apply int_okb_true; unfold int_ok, int_max in *; lia). congruence.
Qed.
Lemma rows_nonneg a l : fps_sane a -> frep a l -> Forall (fun r => 0 <= f_NPad r) (f_rows l).
Proof.
  intros (S1 & S2 & S3) F. apply Forall_forall. intros r I. apply In_nth_error in I. destruct I as [k K]. destruct (fr_rows a l F k r K) as (_ & _ & D). destruct (floor_div_inv _ _ _ D) as (_ & _ & _ & U).
  assert (P : (0 <= frc a (f_nRow l) (Z.of_nat k) * fphi a / (fa_padWidth a + fa_padGap a))%R).
  { apply Rmult_le_pos; [|left; now apply Rinv_0_lt_compat]. apply Rmult_le_pos; [|rewrite fphi_id; lra]. unfold frc, fheight. assert (0 <= IZR (Z.of_nat k))%R by (apply IZR_le; lia).
    assert (N : (0 < f_nRow l)%Z). { rewrite <- (fr_len a l F). assert (nth_error (f_rows l) k <> None) by congruence. apply nth_error_Some in H0. lia. } apply IZR_lt in N.
    assert (0 <= (fa_rMax a - fa_rMin a) / IZR (f_nRow l))%R by (apply Rmult_le_pos; [lra|left; now apply Rinv_0_lt_compat]). nra. }
  assert (0 < f_NPad r + 1)%Z; [|lia]. apply lt_IZR. rewrite plus_IZR. lra.
Qed.
Lemma fps_i_ok a l : fps_sane a -> new_fps (fa_rMin a) (fa_rMax a) (fa_padHeight a) (fa_padWidth a) (fa_nRow a) (fa_padGap a) (fa_phiMax a) = Ok l ->
  new_fps_i (fa_rMin a) (fa_rMax a) (fa_padHeight a) (fa_padWidth a) (fa_nRow a) (fa_padGap a) (fa_phiMax a) = if f_nPad l <=? int_max then Ok l else UB.
Proof.
  intros S E. pose proof (rows_nonneg a l S (new_fps_rep a l E)) as F. unfold new_fps in E. unfold new_fps_i. destruct (_ || _); [discriminate|]. destruct (to_int _) as [nr| |]; cbn [rbind] in *; try discriminate.
  cbv zeta in *. match goal with |- (if ?b then _ else _) = _ => destruct b end; [discriminate|]. destruct (fps_rows _ _ _ _ _ _ _) as [rows| |]; cbn [rbind rmap] in *; try discriminate. injection E as <-. cbn [f_rows f_nPad] in *.
  rewrite int_sum_nonneg by (assumption || (unfold int_max; lia)). rewrite Z.add_0_l. destruct (sum_npad rows <=? int_max); reflexivity.
Qed.
