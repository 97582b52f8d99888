(** The rectangular layout in double arithmetic: the centre of each pad. *)
From Coq Require Import ZArith List String Bool Reals Lra Lia.
From Flocq Require Import Core Relative.
From Verif Require Import Base RBase ListExtra BitProofs NumModel NumSpec NumProofs FpModel FpSpec FpProofs
  RectModel RectSpec RectProofs RectProofs2 RectProofs3 FpRectModel FpRectSpec FpRectProofs FpRectProofs2 FpRectProofs3 FpRectProofs4 FpRectProofs5 FpRectProofs6.
Import ListNotations.
Open Scope R_scope.

Section index.
Variables (x0 x1 y0 : R) (E : list srow) (rp : bool) (l : rect).
Hypothesis HR : drep x0 x1 y0 E rp l.
Hypothesis IX : indexable E.
Lemma dnumbers i s j : nth_error E i = Some s -> (0 <= j < s_n s)%Z -> (0 <= Z.of_nat i < 65536)%Z /\ (0 <= j < 65536)%Z.
Proof.
  intros H J. destruct IX as (HN & HP). assert (Hi : (i < List.length E)%nat) by (apply nth_error_Some; congruence).
  pose proof (proj1 (Forall_forall _ _) HP s (nth_error_In _ _ H)) as P. cbn in P. lia.
Qed.
Lemma drow_of i s j : nth_error E i = Some s -> (0 <= j < s_n s)%Z -> row_of l (code (Z.of_nat i) j) = Ok (drow x0 x1 (edge y0 E i) s).
Proof.
  intros H J. destruct (dnumbers _ _ _ H J) as (Ha & Hb). assert (Hi : (i < List.length E)%nat) by (apply nth_error_Some; congruence).
  unfold row_of, getRowNumber. rewrite <- code_int32 by lia. rewrite pack_row by lia. cbv zeta. rewrite (dlen _ _ _ _ _ _ HR).
  replace (Z.of_nat i <? 0)%Z with false by (symmetry; apply Z.ltb_ge; lia).
  replace (Z.of_nat (List.length E) - 1 <? Z.of_nat i)%Z with false by (symmetry; apply Z.ltb_ge; lia).
  cbn [orb rbind]. unfold sub. now rewrite (drow_nth _ _ _ _ _ _ HR _ _ H).
Qed.
Lemma dpadnum i s j : nth_error E i = Some s -> (0 <= j < s_n s)%Z -> getPadNumber (code (Z.of_nat i) j) = j.
Proof. intros H J. destruct (dnumbers _ _ _ H J). now apply getPadNumber_code. Qed.
Lemma dcentre_of i s j : nth_error E i = Some s -> (0 <= j < s_n s)%Z ->
  dgetPadCenter l (code (Z.of_nat i) j) = Ok (pad_mid x0 x1 s j, dcentre y0 E i s).
Proof.
  intros H J. unfold dgetPadCenter. rewrite (drow_of _ _ _ H J), (dpadnum _ _ _ H J). cbn [rmap drow LeftOffset WidthPerPad Center].
  rewrite (dr_e0 _ _ _ _ _ _ HR). reflexivity.
Qed.
Lemma dinside_of i s j x y : nth_error E i = Some s -> (0 <= j < s_n s)%Z ->
  let w := to_double (rounded_width x0 x1 s / IZR (s_n s)) in
  fadd (pad_edge x0 x1 s j) (fdiv (fsub w (s_padW s)) 2) <= x <= fsub (pad_edge x0 x1 s (j + 1)) (fdiv (fsub w (s_padW s)) 2) ->
  fsub (dcentre y0 E i s) (fdiv (s_padH s) 2) <= y <= fadd (dcentre y0 E i s) (fdiv (s_padH s) 2) ->
  disInsidePad l x y (code (Z.of_nat i) j) = Ok true.
Proof.
  intros H J w X Y. unfold disInsidePad. rewrite (drow_of _ _ _ H J), (dpadnum _ _ _ H J). cbn [rmap drow LeftOffset WidthPerPad Center PadWidth PadHeight].
  rewrite (dr_e0 _ _ _ _ _ _ HR), <- plus_IZR. f_equal.
  change (to_double (dwidth x0 x1 s / IZR (s_n s))) with w.
  change (fadd (edge y0 E i) (fdiv (s_h s) 2)) with (dcentre y0 E i s).
  change (fadd (fadd x0 (s_left s)) (fmul (IZR j) w)) with (pad_edge x0 x1 s j).
  change (fadd (fadd x0 (s_left s)) (fmul (IZR (j + 1)) w)) with (pad_edge x0 x1 s (j + 1)).
  rewrite (proj2 (Rleb_true _ _) (proj1 X)), (proj2 (Rleb_true _ _) (proj2 X)), (proj2 (Rleb_true _ _) (proj1 Y)), (proj2 (Rleb_true _ _) (proj2 Y)). reflexivity.
Qed.
End index.

(** the computed centre: near the exact one, and inside the pad *)
Lemma rect_centre_double : forall x0 x1 y0 h l, built_d x0 x1 y0 h l -> let E := expected_rows_d x0 x1 h in
  indexable E -> Forall (sound_row x0 x1) E -> forall Mx My, within Mx x0 x1 -> within My y0 (y0 + heights E) ->
  forall i s j, nth_error E i = Some s -> (0 <= j < s_n s)%Z ->
  exists p cx cy, getPadIndex l (Z.of_nat i) j = Ok p /\ dgetPadCenter l p = Ok (cx, cy) /\
    Rabs (cx - (cell_left x0 x1 s j + pitch x0 x1 s / 2)) <= tol_x Mx /\
    Rabs (cy - (bottom y0 E i + s_h s / 2)) <= tol_y (List.length E) My /\
    (tol_x Mx <= s_padW s -> disInsidePad l cx cy p = Ok true).
Proof.
  intros x0 x1 y0 h l HB E IX HS Mx My (X0 & X1) (Y0 & Y1) i s j Hs J.
  destruct (built_drep _ _ _ _ _ HB) as (D0 & D1 & D2 & rp & HR). fold E in HR. pose proof IX as (HN & _).
  pose proof (proj1 (Forall_forall _ _) (dr_good _ _ _ _ _ _ HR) s (nth_error_In _ _ Hs)) as G.
  pose proof (proj1 (Forall_forall _ _) HS s (nth_error_In _ _ Hs)) as SR. cbn in SR.
  assert (HT : Forall (fun s => not_tiny (s_h s)) E) by (eapply Forall_impl; [|exact HS]; intros t (_ & _ & T); exact T).
  exists (code (Z.of_nat i) j), (pad_mid x0 x1 s j), (dcentre y0 E i s).
  split; [exact (dindex_ok _ _ _ _ _ _ _ _ _ HR IX Hs J)|]. split; [exact (dcentre_of _ _ _ _ _ _ HR IX _ _ _ Hs J)|].
  split; [apply mid_close; auto|]. split.
  - eapply Rle_trans; [exact (centre_near _ _ _ _ _ _ HR HN D2 HT My Y0 Y1 _ _ Hs)|]. unfold tol_y.
    assert (Hi : (i < List.length E)%nat) by (apply nth_error_Some; congruence). assert (INR i <= INR (List.length E)) by (apply le_INR; lia).
    pose proof (pos_INR i). pose proof ulp1_val. assert (0 <= My) by (eapply Rle_trans; [apply Rabs_pos|exact Y0]).
    apply Rmult_le_compat_r; [lra|]. apply Rmult_le_compat_r; lra.
  - intros PW. assert (PH : 0 <= s_padH s) by apply G. assert (0 <= fdiv (s_padH s) 2) by (apply rnd_nonneg; lra).
    apply (dinside_of _ _ _ _ _ _ HR IX _ _ _ _ _ Hs J).
    + exact (mid_inside _ _ _ D0 D1 G SR Mx X0 X1 j J PW).
    + split; [apply rnd_up; [apply rnd_double|lra]|apply rnd_lo; [apply rnd_double|lra]].
Qed.

(** the nearest pad of the computed centre is the pad *)
Lemma rect_round_trip_double : forall x0 x1 y0 h l H, built_d x0 x1 y0 h l -> let E := expected_rows_d x0 x1 h in
  indexable E -> full_height E -> Forall (sound_row x0 x1) E -> equal_heights H E ->
  forall Mx My, within Mx x0 x1 -> within My y0 (y0 + heights E) -> 64 * tol_y (List.length E) My <= H ->
  forall i s j, nth_error E i = Some s -> (0 <= j < s_n s)%Z -> 8 * tol_x Mx <= pitch x0 x1 s ->
  forall p cx cy, getPadIndex l (Z.of_nat i) j = Ok p -> dgetPadCenter l p = Ok (cx, cy) ->
  forall fuel, (3 <= fuel)%nat -> dgetNearestPad fuel l cx cy = Some (Ok p).
Proof.
  intros x0 x1 y0 h l H HB E IX HF HS HU Mx My HMx HMy HT i s j Hs J PT p cx cy Ep Ec fuel Hf.
  assert (NE : E <> []) by (intros N; rewrite N in Hs; destruct i; discriminate).
  destruct (equal_setup_ok _ _ _ _ _ _ _ HB NE IX HF HS HU HMy HT) as (rp & ES). fold E in ES.
  destruct ES as [HR D0 D1 D2 LN HN TI DH XX YY DT]. destruct HMy as (Y0 & Y1). destruct HMx as (X0 & X1).
  rewrite (dindex_ok _ _ _ _ _ _ _ _ _ HR IX Hs J) in Ep. injection Ep as <-.
  rewrite (dcentre_of _ _ _ _ _ _ HR IX _ _ _ Hs J) in Ec. injection Ec as <- <-.
  pose proof (proj1 (Forall_forall _ _) (dr_good _ _ _ _ _ _ HR) s (nth_error_In _ _ Hs)) as G.
  pose proof (proj1 (Forall_forall _ _) HS s (nth_error_In _ _ Hs)) as SR. cbn in SR.
  set (c := dcentre y0 E i s). set (cx := pad_mid x0 x1 s j).
  pose proof (mid_close _ _ _ D0 D1 G SR Mx X0 X1 j J) as MC. fold cx in MC.
  destruct (m_small _ _ _ D0 D1 G SR Mx X0 X1) as (m0 & _ & _).
  assert (TX : tol_x Mx = 32 * (Mx * ulp1)) by (unfold tol_x; ring).
  destruct (eq_facts x0 x1 y0 E rp l HR HN D2 H HU TI My Y0 Y1 i s Hs) as (Hi & HP & F & HH & C & B0 & B1 & TN & IM & NH & _). fold c in C.
  destruct (m_T y0 E My Y0) as (Q0 & Q1 & Q2 & Q3).
  set (T := tol_y (List.length E) My) in *. set (N := List.length E) in *.
  assert (CT : Rabs (c - (bottom y0 E i + H / 2)) <= T) by lra. apply Rabs_le_inv in CT. clear C.
  assert (Eb : forall k, (k <= N)%nat -> bottom y0 E k = y0 + INR k * H) by (intros; apply (eq_bottom y0 E H HU); assumption).
  assert (Ii : 0 <= INR i * H) by (apply Rmult_le_pos; [apply pos_INR|lra]).
  assert (In : INR i * H + H <= INR N * H) by (replace (INR i * H + H) with (INR (S i) * H) by (rewrite S_INR; ring); apply Rmult_le_compat_r; [lra|apply le_INR; lia]).
  rewrite (Eb i) in CT by lia. apply Rabs_le_inv in TN.
  assert (CR : y0 <= c <= top_edge y0 E) by lra.
  assert (YC : clampR y0 (top_edge y0 E) c = c) by (unfold clampR, Rmax, Rmin; destruct (Rle_dec (top_edge y0 E) c), (Rle_dec y0 _); lra).
  assert (DC : is_double c) by apply centre_double.
  pose proof (guess_safe x0 x1 y0 E rp l HR ltac:(lia) c D2 DT YY CR ltac:(lia)) as GR.
  assert (IG : int_okb (dguess l c) = true) by (apply int_okb_true; unfold int_ok; lia).
  assert (NZ : fsub (top_edge y0 E) y0 <> 0) by (pose proof (fsub_pos _ _ D2 DT YY); lra).
  assert (GN : exists g, dguess l c = Z.of_nat g /\ (g < List.length E)%nat) by (exists (Z.to_nat (dguess l c)); lia).
  destruct GN as (g & GE & GL). destruct fuel as [|[|[|f]]]; try lia.
  assert (SC : forall k, (k < N)%nat -> bottom y0 E k - T <= c <= bottom y0 E k + H + T -> k = i).
  { intros k Hk B. rewrite (Eb k) in B by lia. destruct (lt_eq_lt_dec k i) as [[L|L]|L]; [exfalso|exact L|exfalso].
    - assert ((INR k + 1) * H <= INR i * H) by (apply Rmult_le_compat_r; [lra|]; rewrite <- S_INR; apply le_INR; lia). lra.
    - assert ((INR i + 1) * H <= INR k * H) by (apply Rmult_le_compat_r; [lra|]; rewrite <- S_INR; apply le_INR; lia). lra. }
  destruct (ends x0 x1 y0 E rp l HR HF HN D2 H HU TI My Y0 Y1 HT c g f DC CR) as (k & Hk & SK); auto.
  { intros k (t & t' & Kt & Kt' & A & B).
    pose proof (above x0 x1 y0 E rp l HR HN D2 H HU TI My Y0 Y1 HT k t c Kt DC A) as V1.
    pose proof (below x0 x1 y0 E rp l HR HN D2 H HU TI My Y0 Y1 HT (S k) t' c Kt' DC B) as V2. change (tol_y (List.length E) My) with T in V1, V2.
    assert (Hk : (S k < N)%nat) by (apply nth_error_Some; congruence). rewrite (Eb k) in V1 by lia. rewrite (Eb (S k)), S_INR in V2 by lia.
    destruct (le_lt_dec i k) as [L|L].
    - assert (INR i * H <= INR k * H) by (apply Rmult_le_compat_r; [lra|]; apply le_INR; lia). lra.
    - assert ((INR k + 1) * H <= INR i * H) by (apply Rmult_le_compat_r; [lra|]; rewrite <- S_INR; apply le_INR; lia). lra. }
  assert (k = i).
  { destruct (search_safe x0 x1 y0 E rp l HR HF ltac:(lia) (S (S (S f))) c (Z.of_nat g) CR ltac:(lia)) as [X|(k' & X & ST)]; [congruence|].
    assert (k' = k) by (rewrite SK in X; injection X as X; lia). subst k'.
    destruct (stops_near x0 x1 y0 E rp l HR HN D2 (eq_tiny E H HU TI) My Y0 Y1 c k DC CR ST) as (t & Ht & NB).
    apply SC; [exact Hk|]. rewrite (eq_h E H HU _ _ Ht) in NB.
    replace ((2 * INR (List.length E) + 14) * My * ulp1) with (2 * (INR N * (My * ulp1)) + 14 * (My * ulp1)) in NB by (unfold N; ring). lra. }
  subst k.
  rewrite (nearest_some x0 x1 y0 E rp l HR ltac:(lra) XX _ cx c (Z.of_nat i) NZ); [|rewrite YC; exact IG|rewrite YC, GE; exact SK].
  unfold sub. rewrite (drow_nth _ _ _ _ _ _ HR _ _ Hs). cbn [rbind].
  destruct G as (GN & GG). pose proof (conj GN GG : good_d x0 x1 s) as G. destruct GG as (_ & _ & _ & GL' & GR' & _).
  assert (J0 : 0 <= IZR j) by (apply IZR_le; lia). assert (J1 : IZR j + 1 <= IZR (s_n s)) by (rewrite <- (plus_IZR j 1); apply IZR_le; lia).
  assert (PP : 0 <= pitch x0 x1 s) by lra.
  assert (NPI : IZR (s_n s) * pitch x0 x1 s = x1 - s_right s - (x0 + s_left s)) by (unfold pitch; field; lra).
  assert (P0 : 0 <= IZR j * pitch x0 x1 s) by (apply Rmult_le_pos; lra).
  assert (P1 : (IZR j + 1) * pitch x0 x1 s <= IZR (s_n s) * pitch x0 x1 s) by (apply Rmult_le_compat_r; lra).
  unfold cell_left in MC. apply Rabs_le_inv in MC.
  assert (TP : 0 < tol_x Mx).
  { pose proof (m_normal _ _ _ D0 D1 G SR Mx X0 X1). pose proof (bpow_gt_0 radix2 (-1021)). lra. }
  assert (CX : clampR x0 x1 cx = cx) by (unfold clampR, Rmax, Rmin; destruct (Rle_dec x1 cx), (Rle_dec x0 _); lra).
  rewrite CX.
  destruct (pad_found x0 x1 s D0 D1 G SR Mx X0 X1 l (edge y0 E i) cx (dr_e0 _ _ _ _ _ _ HR) (dr_e1 _ _ _ _ _ _ HR) (rnd_double _) ltac:(lra)) as (j' & EJ & CC).
  rewrite EJ. cbn [rbind]. destruct CC as [(J' & x' & XA & XB & PA)|(_ & XA)]; [|lra].
  assert (j' = j); [|subst j'; now rewrite (dindex_ok _ _ _ _ _ _ _ _ _ HR IX Hs J)].
  destruct PA as (_ & _ & _ & PA). apply Rabs_le_inv in XA. specialize (PA ltac:(lra)). unfold cell_left in PA.
  destruct (Z_lt_le_dec j' j) as [L|L]; [exfalso|].
  - assert ((IZR j' + 1) * pitch x0 x1 s <= IZR j * pitch x0 x1 s) by (apply Rmult_le_compat_r; [lra|]; rewrite <- (plus_IZR j' 1); apply IZR_le; lia). lra.
  - destruct (Z.eq_dec j' j) as [|N']; [assumption|exfalso].
    assert ((IZR j + 1) * pitch x0 x1 s <= IZR j' * pitch x0 x1 s) by (apply Rmult_le_compat_r; [lra|]; rewrite <- (plus_IZR j 1); apply IZR_le; lia). lra.
Qed.
