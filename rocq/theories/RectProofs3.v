(** Proofs about RectangularPadRowLayout::getNearestPad. *)
From Coq Require Import ZArith List String Bool Reals Lra Lia.
From Flocq Require Import Core.Raux Core.Generic_fmt.
From Verif Require Import Base RBase ListExtra BitProofs RectModel RectSpec RectProofs RectProofs2.
Import ListNotations.
Open Scope R_scope.

Lemma heights_nonneg : forall E, Forall (fun s => 0 <= s_h s) E -> 0 <= heights E.
Proof. induction 1; simpl; lra. Qed.

Lemma bottom_mono : forall y0 E i j, Forall (fun s => 0 <= s_h s) E -> (i <= j)%nat ->
  bottom y0 E i <= bottom y0 E j.
Proof.
  intros y0 E i j HF Hij. unfold bottom.
  replace j with (i + (j - i))%nat by lia.
  assert (Hf : firstn (i + (j - i)) E = (firstn i E ++ firstn (j - i) (skipn i E))%list).
  { generalize (j - i)%nat as k. revert i Hij. clear. revert j. induction E; intros j i Hij k.
    - now rewrite !firstn_nil, skipn_nil, firstn_nil.
    - destruct i; simpl; auto. f_equal. apply (IHE (i + k)%nat). lia. }
  rewrite Hf, heights_app.
  assert (0 <= heights (firstn (j - i) (skipn i E))); [|lra].
  apply heights_nonneg. apply Forall_forall. intros s Hs. rewrite Forall_forall in HF. apply HF.
  rewrite <- (firstn_skipn i E). apply in_or_app. right.
  rewrite <- (firstn_skipn (j - i) (skipn i E)). apply in_or_app. auto.
Qed.

Lemma Zceil_bounds : forall x, x <= IZR (Zceil x) < x + 1.
Proof. intros. pose proof (Zceil_ub x). pose proof (Zceil_lb x). lra. Qed.

Section Search.
  Context {x0 x1 y0 : R} {E : list srow} {ex : Z} {rp : bool} {l : rect}.
  Hypothesis HR : rep x0 x1 y0 E ex rp l.
  Hypothesis HI : indexable E.
  (* every pad fills the height of its row *)
  Hypothesis HF : Forall (fun s => s_padH s = s_h s) E.

  Lemma hnn : Forall (fun s => 0 <= s_h s) E.
  Proof.
    apply Forall_forall. intros s Hs. pose proof (rep_good _ _ _ _ _ _ _ HR) as G.
    rewrite Forall_forall in G. now destruct (G s Hs) as (_&_&_&H&_).
  Qed.

  Variable y : R.
  Hypothesis Hy : y0 <= y <= y0 + heights E.

  Definition holds_row (i : nat) : Prop := bottom y0 E i <= y <= bottom y0 E (S i).

  (* one turn of the loop at a row of the layout *)
  Lemma search_step : forall fuel i s, nth_error E i = Some s ->
    (holds_row i /\ search_row (S fuel) l y (Z.of_nat i) = Some (Ok (Z.of_nat i))) \/
    (y < bottom y0 E i /\
     let p := INR i * ((y - bottom y0 E i) / (bottom y0 E i - y0)) in
     exists k, Z.of_nat k = (Z.of_nat i + Zfloor p)%Z /\ (k < i)%nat /\
       search_row (S fuel) l y (Z.of_nat i) = search_row fuel l y (Z.of_nat k)) \/
    (bottom y0 E (S i) < y /\
     let n := List.length E in
     let p := INR (n - i - 1) * ((y - bottom y0 E (S i)) / (y0 + heights E - bottom y0 E (S i))) in
     exists k, Z.of_nat k = (Z.of_nat i + Zceil p)%Z /\ (i < k)%nat /\ (k < n)%nat /\
       search_row (S fuel) l y (Z.of_nat i) = search_row fuel l y (Z.of_nat k)).
  Proof.
    intros fuel i s Hs. cbn [search_row]. rewrite (sub_rows _ _ _ _ _ _ _ _ HR), Hs. cbn [option_map row_at Center PadHeight Height].
    destruct (row_range HR HI _ _ Hs) as (Hil & Hi & Hn).
    assert (Hph : s_padH s = s_h s).
    { rewrite Forall_forall in HF. apply HF. eapply nth_error_In; eauto. }
    assert (Hh : 0 <= s_h s).
    { pose proof hnn as G. rewrite Forall_forall in G. apply G. eapply nth_error_In; eauto. }
    rewrite Hph. pose proof (bottom_S y0 E i s Hs) as HbS.
    destruct (Rleb_spec (Rabs (y - (bottom y0 E i + s_h s / 2))) (s_h s / 2)) as [Hin|Hout].
    { left. split; [|reflexivity]. unfold holds_row. apply Rabs_le_inv in Hin. lra. }
    rewrite (rep_e2 _ _ _ _ _ _ _ HR), (rep_e3 _ _ _ _ _ _ _ HR), (lenE HR).
    right.
    assert (Hlen : (Z.of_nat (List.length E) <= 65536)%Z) by (destruct HI; auto).
    destruct (Rltb_spec (y - (bottom y0 E i + s_h s / 2)) 0) as [Hneg|Hpos].
    - left. assert (Hyb : y < bottom y0 E i).
      { unfold Rabs in Hout. destruct Rcase_abs; lra. }
      split; [exact Hyb|]. cbv zeta.
      replace (bottom y0 E i + s_h s / 2 - y0 - s_h s / 2) with (bottom y0 E i - y0) by lra.
      replace (y - (bottom y0 E i + s_h s / 2) + s_h s / 2) with (y - bottom y0 E i) by lra.
      assert (Hi0 : (0 < i)%nat).
      { destruct i; [|lia]. rewrite bottom_0 in Hyb. lra. }
      assert (HiR : 1 <= INR i) by (apply (le_INR 1); lia).
      destruct (Reqb_spec (bottom y0 E i - y0) 0) as [Hz|Hz]; [lra|].
      rewrite <- INR_IZR_INZ.
      set (q := (y - bottom y0 E i) / (bottom y0 E i - y0)).
      assert (Hq : -1 <= q < 0).
      { unfold q. split.
        - apply Rmult_le_reg_r with (bottom y0 E i - y0); [lra|]. field_simplify; lra.
        - apply Rmult_lt_reg_r with (bottom y0 E i - y0); [lra|]. field_simplify; lra. }
      assert (Hp : - INR i <= INR i * q < 0).
      { split.
        - assert (INR i * -1 <= INR i * q) by (apply Rmult_le_compat_l; lra). lra.
        - assert (INR i * q < INR i * 0) by (apply Rmult_lt_compat_l; lra). lra. }
      rewrite (proj2 (Rltb_true _ 0)) by lra.
      assert (Hf1 : (Zfloor (INR i * q) <= -1)%Z).
      { assert (IZR (Zfloor (INR i * q)) < 0) by (pose proof (Zfloor_lb (INR i * q)); lra).
        apply lt_IZR in H. lia. }
      assert (Hf2 : (- Z.of_nat i <= Zfloor (INR i * q))%Z).
      { apply Zfloor_lub. rewrite opp_IZR, <- INR_IZR_INZ. lra. }
      replace (int_okb (Zfloor (INR i * q))) with true
        by (symmetry; apply int_okb_true; unfold int_ok; lia).
      replace (Zfloor (INR i * q) =? 0)%Z with false by (symmetry; apply Z.eqb_neq; lia).
      exists (Z.to_nat (Z.of_nat i + Zfloor (INR i * q))). rewrite Z2Nat.id by lia.
      repeat split; auto. lia.
    - right. assert (Hyb : bottom y0 E (S i) < y).
      { unfold Rabs in Hout. destruct Rcase_abs; lra. }
      split; [exact Hyb|]. cbv zeta.
      replace (y0 + heights E - (bottom y0 E i + s_h s / 2) - s_h s / 2)
        with (y0 + heights E - bottom y0 E (S i)) by lra.
      replace (y - (bottom y0 E i + s_h s / 2) - s_h s / 2) with (y - bottom y0 E (S i)) by lra.
      assert (Hi0 : (S i < List.length E)%nat).
      { destruct (Nat.eq_dec (S i) (List.length E)) as [He|]; [|lia].
        rewrite He, bottom_all in Hyb. lra. }
      replace (Z.of_nat (List.length E) - Z.of_nat i - 1)%Z with (Z.of_nat (List.length E - i - 1)) by lia.
      rewrite <- INR_IZR_INZ.
      set (m := (List.length E - i - 1)%nat).
      assert (HmR : 1 <= INR m) by (apply (le_INR 1); unfold m; lia).
      destruct (Reqb_spec (y0 + heights E - bottom y0 E (S i)) 0) as [Hz|Hz]; [lra|].
      set (q := (y - bottom y0 E (S i)) / (y0 + heights E - bottom y0 E (S i))).
      assert (Hq : 0 < q <= 1).
      { unfold q. split.
        - apply Rmult_lt_reg_r with (y0 + heights E - bottom y0 E (S i)); [lra|]. field_simplify; lra.
        - apply Rmult_le_reg_r with (y0 + heights E - bottom y0 E (S i)); [lra|]. field_simplify; lra. }
      assert (Hp : 0 < INR m * q <= INR m).
      { split.
        - apply Rmult_lt_0_compat; lra.
        - assert (INR m * q <= INR m * 1) by (apply Rmult_le_compat_l; lra). lra. }
      rewrite (proj2 (Rltb_false _ 0)) by lra.
      assert (Hf1 : (1 <= Zceil (INR m * q))%Z).
      { assert (0 < IZR (Zceil (INR m * q))) by (pose proof (Zceil_ub (INR m * q)); lra).
        apply lt_IZR in H. lia. }
      assert (Hf2 : (Zceil (INR m * q) <= Z.of_nat m)%Z).
      { apply Zceil_glb. rewrite <- INR_IZR_INZ. lra. }
      unfold m in *.
      replace (int_okb (Zceil (INR (List.length E - i - 1) * q))) with true
        by (symmetry; apply int_okb_true; unfold int_ok; lia).
      replace (Zceil (INR (List.length E - i - 1) * q) =? 0)%Z with false by (symmetry; apply Z.eqb_neq; lia).
      exists (Z.to_nat (Z.of_nat i + Zceil (INR (List.length E - i - 1) * q))). rewrite Z2Nat.id by lia.
      repeat split; auto; lia.
  Qed.

  (* whenever the search ends, it ends at a row that contains the point *)
  Lemma search_sound : forall fuel i res, (i < List.length E)%nat ->
    search_row fuel l y (Z.of_nat i) = Some res ->
    exists k, (k < List.length E)%nat /\ res = Ok (Z.of_nat k) /\ holds_row k.
  Proof.
    induction fuel; intros i res Hi H; [discriminate|].
    destruct (nth_error E i) as [s|] eqn:Hs; [|apply nth_error_None in Hs; lia].
    destruct (search_step fuel i s Hs) as [[Hh Heq]|[[Hb [k [Hk [Hlt Heq]]]]|[Hb [k [Hk [Hlt [Hlt' Heq]]]]]]];
      rewrite Heq in H.
    - inversion H. eauto.
    - apply IHfuel with k; auto. lia.
    - apply IHfuel with k; auto.
  Qed.

  (* rows of equal height: at most two turns *)
  Variable H : R.
  Hypothesis Huni : Forall (fun s => s_h s = H) E.
  Hypothesis HHpos : 0 < H.

  Lemma bottom_uniform : forall i, (i <= List.length E)%nat -> bottom y0 E i = y0 + INR i * H.
  Proof.
    induction i; intros Hi; [rewrite bottom_0; simpl; lra|].
    destruct (nth_error E i) as [s|] eqn:Hs; [|apply nth_error_None in Hs; lia].
    rewrite (bottom_S _ _ _ _ Hs), IHi by lia. rewrite S_INR.
    assert (s_h s = H) by (rewrite Forall_forall in Huni; apply Huni; eapply nth_error_In; eauto). lra.
  Qed.

  Lemma heights_uniform : heights E = INR (List.length E) * H.
  Proof. pose proof (bottom_uniform (List.length E) (le_n _)). rewrite bottom_all in H0. lra. Qed.

  Lemma search_two : forall fuel i, (i < List.length E)%nat -> (2 <= fuel)%nat ->
    exists k, (k < List.length E)%nat /\ search_row fuel l y (Z.of_nat i) = Some (Ok (Z.of_nat k)) /\ holds_row k.
  Proof.
    intros fuel i Hi Hf. destruct fuel as [|[|fuel]]; try lia.
    destruct (nth_error E i) as [s|] eqn:Hs; [|apply nth_error_None in Hs; lia].
    set (u := (y - y0) / H).
    assert (Hyu : y = y0 + u * H) by (unfold u; field; lra).
    destruct (search_step (S fuel) i s Hs) as [[Hh Heq]|[[Hb [k [Hk [Hlt Heq]]]]|[Hb [k [Hk [Hlt [Hlt' Heq]]]]]]].
    - exists i. auto.
    - (* from above: the row is floor u *)
      rewrite bottom_uniform in Hb, Hk by lia.
      assert (HiR : 0 < INR i) by (apply (lt_INR 0); lia).
      assert (Hp : INR i * ((y - (y0 + INR i * H)) / (y0 + INR i * H - y0)) = u - INR i).
      { rewrite Hyu. replace (y0 + INR i * H - y0) with (INR i * H) by lra. field. split; lra. }
      rewrite Hp in Hk.
      destruct (nth_error E k) as [s'|] eqn:Hs'; [|apply nth_error_None in Hs'; lia].
      assert (Hkh : holds_row k).
      { unfold holds_row. rewrite !bottom_uniform by lia. rewrite S_INR, Hyu.
        rewrite (INR_IZR_INZ k), Hk, plus_IZR, <- INR_IZR_INZ.
        pose proof (Zfloor_lb (u - INR i)). pose proof (Zfloor_ub (u - INR i)).
        split; apply Rplus_le_compat_l, Rmult_le_compat_r; lra. }
      exists k. split; [lia|]. split; [|exact Hkh]. rewrite Heq.
      destruct (search_step fuel k s' Hs') as [[_ Hq]|[[Hb' _]|[Hb' _]]]; auto; unfold holds_row in Hkh; lra.
    - (* from below: the row is ceil u - 1 *)
      rewrite bottom_uniform in Hb, Hk by lia. rewrite heights_uniform in Hk.
      assert (HiR : 0 < INR (List.length E - i - 1)) by (apply (lt_INR 0); lia).
      assert (Hsum : INR (List.length E) = INR (List.length E - i - 1) + INR (S i)).
      { rewrite <- plus_INR. f_equal. lia. }
      assert (Hp : INR (List.length E - i - 1) * ((y - (y0 + INR (S i) * H)) /
                   (y0 + INR (List.length E) * H - (y0 + INR (S i) * H))) = u - INR (S i)).
      { rewrite Hyu, Hsum. set (m := INR (List.length E - i - 1)) in *.
        replace (y0 + (m + INR (S i)) * H - (y0 + INR (S i) * H)) with (m * H) by ring. field. split; lra. }
      rewrite Hp in Hk.
      destruct (nth_error E k) as [s'|] eqn:Hs'; [|apply nth_error_None in Hs'; lia].
      assert (Hkh : holds_row k).
      { unfold holds_row. rewrite !bottom_uniform by lia. rewrite S_INR, Hyu.
        rewrite (INR_IZR_INZ k), Hk, plus_IZR, <- INR_IZR_INZ.
        pose proof (Zceil_bounds (u - INR (S i))). rewrite S_INR in *.
        split; apply Rplus_le_compat_l, Rmult_le_compat_r; lra. }
      exists k. split; [lia|]. split; [|exact Hkh]. rewrite Heq.
      destruct (search_step fuel k s' Hs') as [[_ Hq]|[[Hb' _]|[Hb' _]]]; auto; unfold holds_row in Hkh; lra.
  Qed.
End Search.

(** ** choosing the pad in the row *)
Lemma Ztrunc_between : forall x n, 0 <= x < IZR n -> (0 <= Ztrunc x < n)%Z /\ IZR (Ztrunc x) <= x < IZR (Ztrunc x) + 1.
Proof.
  intros x n Hx. rewrite Ztrunc_floor by lra.
  pose proof (Zfloor_lb x). pose proof (Zfloor_ub x).
  assert (-1 < IZR (Zfloor x)) by lra. assert (IZR (Zfloor x) < IZR n) by lra.
  apply lt_IZR in H1. apply lt_IZR in H2. split; [lia|lra].
Qed.

Lemma pad_in_row_ok : forall x0 x1 y0 E ex rp l, rep x0 x1 y0 E ex rp l -> indexable E ->
  forall i s x, nth_error E i = Some s ->
  exists j, pad_in_row l (row_at x0 x1 (bottom y0 E i) s) x = Ok j /\ (0 <= j < s_n s)%Z /\
    (x <= x0 + s_left s -> j = 0%Z) /\ (x0 + s_left s < x -> x1 - s_right s <= x -> j = (s_n s - 1)%Z) /\
    (x0 + s_left s <= x <= x1 - s_right s ->
       cell_left x0 x1 s j <= x <= cell_left x0 x1 s (j + 1)).
Proof.
  intros x0 x1 y0 E ex rp l HR HI i s x Hs.
  destruct (pitch_nonneg HR _ _ Hs) as (Hp & Hw & Hn).
  destruct (row_range HR HI _ _ Hs) as (Hil & Hi & Hnn).
  assert (HnR : 0 < IZR (s_n s)) by (apply IZR_lt; lia).
  unfold pad_in_row. cbn [row_at LeftOffset RightOffset WidthPerPad NPad].
  rewrite (rep_e0 _ _ _ _ _ _ _ HR), (rep_e1 _ _ _ _ _ _ _ HR). unfold cell_left.
  destruct (Rleb_spec x (x0 + s_left s)).
  { exists 0%Z. change (0 + 1)%Z with 1%Z. repeat split; auto; try lia; try lra. }
  destruct (Rleb_spec (x1 - s_right s) x).
  { exists (s_n s - 1)%Z. replace (s_n s - 1 + 1)%Z with (s_n s) by lia. rewrite minus_IZR.
    repeat split; auto; try lia; try lra. }
  assert (Hpp : 0 < pitch x0 x1 s).
  { destruct Hp as [|Hp]; auto. rewrite <- Hp in Hn. lra. }
  destruct (Reqb_spec (pitch x0 x1 s) 0); [lra|].
  unfold to_int. set (q := (x - (x0 + s_left s)) / pitch x0 x1 s).
  assert (Hq : x = x0 + s_left s + q * pitch x0 x1 s) by (unfold q; field; lra).
  assert (Hqr : 0 <= q < IZR (s_n s)).
  { split.
    - apply Rmult_le_reg_r with (pitch x0 x1 s); lra.
    - apply Rmult_lt_reg_r with (pitch x0 x1 s); lra. }
  destruct (Ztrunc_between _ _ Hqr) as [Hj Hjr].
  replace (int_okb (Ztrunc q)) with true by (symmetry; apply int_okb_true; unfold int_ok; lia).
  exists (Ztrunc q). repeat split; auto; try lia; try lra; rewrite ?plus_IZR.
  - assert (IZR (Ztrunc q) * pitch x0 x1 s <= q * pitch x0 x1 s) by (apply Rmult_le_compat_r; lra). lra.
  - assert (q * pitch x0 x1 s <= (IZR (Ztrunc q) + 1) * pitch x0 x1 s) by (apply Rmult_le_compat_r; lra). lra.
Qed.

Lemma clampR_range : forall lo hi v, lo <= hi -> lo <= clampR lo hi v <= hi.
Proof. intros. unfold clampR, Rmax, Rmin. repeat destruct Rle_dec; lra. Qed.
Lemma clampR_eq : forall lo hi v, lo <= hi -> clamp_hi (clamp_lo v lo) hi = clampR lo hi v.
Proof. intros. unfold clampR, clamp_hi, clamp_lo, Rmax, Rmin. destruct (Rltb_spec v lo); rcase; repeat destruct Rle_dec; lra. Qed.

Lemma guess_range : forall n t, (1 <= n)%Z -> 0 <= t <= 1 ->
  (0 <= c_round (IZR (n - 1) * t) <= n - 1)%Z.
Proof.
  intros n t Hn Ht. unfold c_round.
  assert (H0 : 0 <= IZR (n - 1)) by (apply IZR_le; lia).
  assert (H1 : 0 <= IZR (n - 1) * t <= IZR (n - 1)).
  { split; [apply Rmult_le_pos; lra|]. assert (IZR (n-1) * t <= IZR (n-1) * 1) by (apply Rmult_le_compat_l; lra). lra. }
  split.
  - rewrite <- (Znearest_imp (Zle_bool 0) 0 0) at 1.
    + apply (@Zrnd_le (Znearest (Zle_bool 0)) _); lra.
    + rewrite Rminus_0_r, Rabs_R0. lra.
  - apply Z.le_trans with (Znearest (Zle_bool 0) (IZR (n - 1))); [apply (@Zrnd_le (Znearest (Zle_bool 0)) _); lra|].
    rewrite (Znearest_imp (Zle_bool 0) (IZR (n - 1)) (n - 1)); [lia|].
    rewrite Rminus_diag_eq by auto. rewrite Rabs_R0. lra.
Qed.

Section Nearest.
  Context {x0 x1 y0 : R} {E : list srow} {ex : Z} {rp : bool} {l : rect}.
  Hypothesis HR : rep x0 x1 y0 E ex rp l.
  Hypothesis HI : indexable E.
  Hypothesis HF : Forall (fun s => s_padH s = s_h s) E.
  Hypothesis Hpos : 0 < heights E.

  Lemma len_pos : (0 < List.length E)%nat.
  Proof. clear -Hpos. destruct E; simpl in *; [lra|lia]. Qed.

  Notation pad_at := (pad_at x0 x1 y0 E).

  Lemma guess_ok : forall y, y0 <= y <= y0 + heights E ->
    exists i, (i < List.length E)%nat /\
      c_round (IZR (Z.of_nat (List.length (_rows l)) - 1) * (y - ext2 l) / (ext3 l - ext2 l)) = Z.of_nat i.
  Proof.
    intros y Hy. rewrite (lenE HR), (rep_e2 _ _ _ _ _ _ _ HR), (rep_e3 _ _ _ _ _ _ _ HR).
    replace (y0 + heights E - y0) with (heights E) by lra.
    unfold Rdiv. rewrite Rmult_assoc. pose proof len_pos.
    assert (Ht : 0 <= (y - y0) * / heights E <= 1).
    { split.
      - apply Rmult_le_pos; [lra|]. left. now apply Rinv_0_lt_compat.
      - apply Rmult_le_reg_r with (heights E); [lra|]. rewrite Rmult_assoc, Rinv_l by lra. lra. }
    pose proof (guess_range (Z.of_nat (List.length E)) _ ltac:(lia) Ht) as G.
    exists (Z.to_nat (c_round (IZR (Z.of_nat (List.length E) - 1) * ((y - y0) * / heights E)))).
    rewrite Z2Nat.id by lia. split; [lia|reflexivity].
  Qed.

  Lemma good_extent : x0 <= x1.
  Proof.
    pose proof len_pos as Hl. destruct (nth_error E 0) as [s|] eqn:Hs; [|apply nth_error_None in Hs; lia].
    destruct (pitch_nonneg HR _ _ Hs) as (Hp & _ & Hn).
    destruct (good_nth HR _ _ Hs) as (H1&H2&H3&H4&H5&H6&H7&H8). unfold width_fits in H7.
    assert (0 <= IZR (s_n s)) by (apply IZR_le; lia).
    pose proof (Rmult_le_pos _ _ H H2). lra.
  Qed.

  Lemma finish : forall k x y, (k < List.length E)%nat -> holds_row (y0:=y0) (E:=E) y k ->
    exists s j, rbind (sub (_rows l) (Z.of_nat k)) (fun row =>
          rbind (pad_in_row l row x) (fun pn => getPadIndex l (Z.of_nat k) pn)) = Ok (code (Z.of_nat k) j) /\
      pad_at x y k s j.
  Proof.
    intros k x y Hk Hh. destruct (nth_error E k) as [s|] eqn:Hs; [|apply nth_error_None in Hs; lia].
    rewrite (sub_row HR _ _ Hs). cbn [rbind].
    destruct (pad_in_row_ok _ _ _ _ _ _ _ HR HI k s x Hs) as (j & Hj & Hjr & Hl & Hr & Hc).
    rewrite Hj. cbn [rbind]. exists s, j. split; [now apply (getPadIndex_code HR HI) with s|].
    unfold holds_row in Hh. rewrite (bottom_S _ _ _ _ Hs) in Hh.
    destruct (cell_inside HR _ _ _ Hs Hjr) as (_ & _ & Hcs).
    destruct (pitch_nonneg HR _ _ Hs) as (Hp & _ & Hn).
    assert (Hw : x0 + s_left s <= x1 - s_right s).
    { assert (0 <= IZR (s_n s)) by (apply IZR_le; lia). pose proof (Rmult_le_pos _ _ H Hp). lra. }
    unfold pad_at. split; [exact Hs|]. split; [exact Hjr|]. split; [lra|].
    split; [intros; apply Hl; lra|]. split; [intros; apply Hr; lra|].
    intros Hx. rewrite <- Hcs. apply Hc; auto.
  Qed.

  Lemma nearest_unfold : forall fuel x y, exists i, (i < List.length E)%nat /\
    let x' := clampR x0 x1 x in let y' := clampR y0 (y0 + heights E) y in
    y0 <= y' <= y0 + heights E /\
    getNearestPad fuel l x y =
      match search_row fuel l y' (Z.of_nat i) with
      | None => None
      | Some (Ok rn) =>
        Some (rbind (sub (_rows l) rn) (fun row =>
              rbind (pad_in_row l row x') (fun pn => getPadIndex l rn pn)))
      | Some (Throw e) => Some (Throw e)
      | Some UB => Some UB
      end.
  Proof.
    intros fuel x y. cbv zeta.
    assert (Hc : y0 <= clampR y0 (y0 + heights E) y <= y0 + heights E) by (apply clampR_range; lra).
    destruct (guess_ok _ Hc) as [i [Hi Hg]]. exists i. split; auto. split; auto.
    unfold getNearestPad.
    destruct (Reqb_spec (ext3 l - ext2 l) 0) as [Hz|Hz].
    { rewrite (rep_e2 _ _ _ _ _ _ _ HR), (rep_e3 _ _ _ _ _ _ _ HR) in Hz. lra. }
    rewrite (rep_e0 _ _ _ _ _ _ _ HR), (rep_e1 _ _ _ _ _ _ _ HR).
    rewrite (rep_e3 _ _ _ _ _ _ _ HR) in *. rewrite (rep_e2 _ _ _ _ _ _ _ HR) in *.
    pose proof good_extent. rewrite !clampR_eq by lra. rewrite Hg.
    replace (int_okb (Z.of_nat i)) with true; [reflexivity|].
    symmetry; apply int_okb_true. unfold int_ok. destruct HI. lia.
  Qed.

  Lemma nearest_sound : forall fuel x y r, getNearestPad fuel l x y = Some r ->
    exists i s j, r = Ok (code (Z.of_nat i) j) /\
      pad_at (clampR x0 x1 x) (clampR y0 (y0 + heights E) y) i s j.
  Proof.
    intros fuel x y r Hr. destruct (nearest_unfold fuel x y) as (i & Hi & Hy & Heq). cbv zeta in *.
    rewrite Heq in Hr.
    destruct (search_row fuel l _ (Z.of_nat i)) as [res|] eqn:Es; [|discriminate].
    destruct (search_sound HR HI HF _ Hy _ _ _ Hi Es) as (k & Hk & Hres & Hh). subst res.
    inversion Hr; subst.
    destruct (finish k (clampR x0 x1 x) _ Hk Hh) as (s & j & Hf & Hp). exists k, s, j. auto.
  Qed.

  Lemma nearest_uniform : forall H fuel x y, Forall (fun s => s_h s = H) E -> (2 <= fuel)%nat ->
    exists r, getNearestPad fuel l x y = Some r.
  Proof.
    intros H fuel x y HU Hf. destruct (nearest_unfold fuel x y) as (i & Hi & Hy & Heq). cbv zeta in *.
    assert (HH : 0 < H).
    { pose proof len_pos. 
      assert (He : heights E = INR (List.length E) * H) by (apply (heights_uniform (y0:=y0)); auto).
      assert (0 < INR (List.length E)) by (apply (lt_INR 0); lia).
      rewrite He in Hpos. destruct (Rlt_dec 0 H); auto.
      assert (INR (List.length E) * H <= INR (List.length E) * 0) by (apply Rmult_le_compat_l; lra). lra. }
    destruct (search_two HR HI HF _ Hy H HU HH fuel i Hi Hf) as (k & Hk & Hs & _).
    rewrite Heq, Hs. eauto.
  Qed.
End Nearest.
