(** Proofs about RectangularPadRowLayout::getNearestPadOld. *)
From Coq Require Import ZArith List String Bool Reals Lra Lia.
From Flocq Require Import Core.Raux.
From Verif Require Import Base RBase ListExtra RectModel RectOldModel RectSpec RectOldSpec RectProofs RectProofs2 RectProofs3.
Import ListNotations.
Open Scope R_scope.

Definition row_d (l : rect) (x y : R) (row : Row) : R :=
  distanceToBox x y (ext0 l + LeftOffset row) (Center row - PadHeight row / 2)
                (ext1 l - RightOffset row) (Center row + PadHeight row / 2).

(** What the loop finds, in terms of the value compared in it. *)
Lemma old_scan_spec : forall l x y rows i d0 r0,
  let r := old_scan l x y rows i d0 r0 in
  (r = r0 /\ forall k row, nth_error rows k = Some row -> d0 <= row_d l x y row) \/
  (exists k row, r = (i + Z.of_nat k)%Z /\ nth_error rows k = Some row /\ row_d l x y row < d0 /\
     (forall m t, (m < k)%nat -> nth_error rows m = Some t ->
        row_d l x y row < row_d l x y t /\ (0 <= d0 -> 0 <= row_d l x y t)) /\
     (row_d l x y row < 0 \/ forall m t, nth_error rows m = Some t -> row_d l x y row <= row_d l x y t)).
Proof.
  intros l x y. induction rows as [|a rows IH]; intros i d0 r0; cbv zeta.
  { left. split; [reflexivity|]. intros k row Hk. destruct k; discriminate. }
  cbn [old_scan]. cbv zeta. fold (row_d l x y a).
  destruct (Rltb_spec (row_d l x y a) d0) as [H|H].
  - destruct (Rltb_spec (row_d l x y a) 0) as [K|K].
    + right. exists 0%nat, a. split; [cbn; lia|]. split; [reflexivity|]. split; [exact H|]. split; [intros; lia|]. now left.
    + destruct (IH (i + 1)%Z (row_d l x y a) i) as [[E1 E2]|(k & row & E1 & E2 & E3 & E4 & E5)]; cbv zeta in *.
      * right. exists 0%nat, a. split; [rewrite E1; cbn; lia|]. split; [reflexivity|]. split; [exact H|].
        split; [intros; lia|]. right. intros [|m] t Hm; [injection Hm as <-; lra|]. exact (E2 m t Hm).
      * right. exists (S k), row. split; [rewrite E1; lia|]. split; [exact E2|]. split; [lra|]. split.
        { intros [|m] t Hm Ht; [injection Ht as <-; split; [lra|intros; lra]|].
          destruct (E4 m t ltac:(lia) Ht) as [F1 F2]. split; [exact F1|]. intros _. apply F2. lra. }
        destruct E5 as [E5|E5]; [now left|]. right. intros [|m] t Hm; [injection Hm as <-; lra|]. exact (E5 m t Hm).
  - destruct (IH (i + 1)%Z d0 r0) as [[E1 E2]|(k & row & E1 & E2 & E3 & E4 & E5)]; cbv zeta in *.
    + left. split; [exact E1|]. intros [|k] row Hk; [injection Hk as <-; lra|]. exact (E2 k row Hk).
    + right. exists (S k), row. split; [rewrite E1; lia|]. split; [exact E2|]. split; [exact E3|]. split.
      { intros [|m] t Hm Ht; [injection Ht as <-; split; [lra|intros; lra]|]. apply (E4 m t ltac:(lia) Ht). }
      destruct E5 as [E5|E5]; [now left|]. right. intros [|m] t Hm; [injection Hm as <-; lra|]. exact (E5 m t Hm).
Qed.

(** distanceToBox is -1 inside and positive outside. *)
Lemma box_sign : forall x y xmin ymin xmax ymax,
  let d := distanceToBox x y xmin ymin xmax ymax in d = -1 \/ 0 < d.
Proof.
  intros. subst d. unfold distanceToBox.
  assert (Hs : forall a b, 0 < a * a -> 0 < sqrt (a * a + b * b)).
  { intros a b H. apply sqrt_lt_R0. pose proof (Rle_0_sqr b) as Q. unfold Rsqr in Q. lra. }
  assert (Hp : forall a, a <> 0 -> 0 < a * a).
  { intros a H. pose proof (Rlt_0_sqr a H) as Q. exact Q. }
  repeat rcase; try (left; reflexivity); right; try lra; apply Hs, Hp; lra.
Qed.

Lemma box_dist_unique : forall x y a b c d e f,
  is_box_dist x y a b c d e -> is_box_dist x y a b c d f -> e = f.
Proof.
  intros x y a b c d e f [(p & q & P1 & P2 & P3) L1] [(u & v & U1 & U2 & U3) L2].
  pose proof (L1 u v U1 U2). pose proof (L2 p q P1 P2). lra.
Qed.

Section Old.
  Context {x0 x1 y0 : R} {E : list srow} {ex : Z} {rp : bool} {l : rect}.
  Hypothesis HR : rep x0 x1 y0 E ex rp l.
  Hypothesis HI : indexable E.

  Lemma width_ok : forall i s, nth_error E i = Some s -> x0 + s_left s <= x1 - s_right s.
  Proof.
    intros i s Hs. destruct (good_nth HR _ _ Hs) as (H1&H2&H3&H4&H5&H6&H7&H8). unfold width_fits in H7.
    assert (0 <= IZR (s_n s) * s_padW s) by (apply Rmult_le_pos; [apply IZR_le; lia|lra]). lra.
  Qed.

  Lemma rows_nth : forall k, nth_error (_rows l) k = option_map (row_at x0 x1 (bottom y0 E k)) (nth_error E k).
  Proof. intros k. rewrite (rep_rows _ _ _ _ _ _ _ HR). apply rows_of_nth. Qed.

  (** the value compared and the distance *)
  Lemma row_d_dist : forall k s x y d, nth_error E k = Some s -> row_dist x0 x1 y0 E k s x y d ->
    let v := row_d l x y (row_at x0 x1 (bottom y0 E k) s) in v = -1 /\ d = 0 \/ 0 < v /\ d = v.
  Proof.
    intros k s x y d Hs Hd. cbv zeta. unfold row_d. cbn [row_at LeftOffset RightOffset Center PadHeight].
    rewrite (rep_e0 _ _ _ _ _ _ _ HR), (rep_e1 _ _ _ _ _ _ _ HR). unfold row_dist in Hd. cbv zeta in Hd.
    destruct (good_nth HR _ _ Hs) as (H1&H2&H3&H4&H5&H6&H7&H8). pose proof (width_ok _ _ Hs) as Hw.
    match goal with |- context [distanceToBox ?a ?b ?c ?u ?e ?f] =>
      pose proof (distanceToBox_euclid a b c u e f Hw ltac:(lra)) as Q; cbv zeta in Q;
      pose proof (box_sign a b c u e f) as S; cbv zeta in S;
      set (v := distanceToBox a b c u e f) in * end.
    pose proof (box_dist_unique _ _ _ _ _ _ _ _ Hd Q) as U.
    destruct S as [S|S]; [left|right]; (split; [exact S|]); rewrite U; rcase; lra.
  Qed.
  Lemma row_dist_ex : forall k s x y, nth_error E k = Some s -> exists d, row_dist x0 x1 y0 E k s x y d.
  Proof.
    intros k s x y Hs. unfold row_dist. cbv zeta. pose proof (width_ok _ _ Hs) as Hw.
    destruct (good_nth HR _ _ Hs) as (H1&H2&H3&H4&H5&H6&H7&H8).
    eexists. apply distanceToBox_euclid; [exact Hw|lra].
  Qed.

  Definition found (x y : R) (i : nat) (s : srow) : Prop :=
    (exists d, row_dist x0 x1 y0 E i s x y d /\ (d = 0 \/ d < 2 * heights E) /\
       forall k t dk, nth_error E k = Some t -> row_dist x0 x1 y0 E k t x y dk ->
         d <= dk /\ ((k < i)%nat -> d < dk)) \/
    (i = 0%nat /\ forall k t dk, nth_error E k = Some t -> row_dist x0 x1 y0 E k t x y dk ->
         0 < dk /\ 2 * heights E <= dk).

  Lemma heights_nn : 0 <= heights E.
  Proof.
    apply heights_nonneg. apply Forall_forall. intros s Hs. pose proof (rep_good _ _ _ _ _ _ _ HR) as G.
    rewrite Forall_forall in G. apply (G s Hs).
  Qed.

  Lemma old_scan_row : forall x y, E <> [] ->
    exists i s, old_scan l x y (_rows l) 0 (2 * (ext3 l - ext2 l)) 0 = Z.of_nat i /\
      nth_error E i = Some s /\ found x y i s.
  Proof.
    intros x y Hne. pose proof heights_nn as Hh.
    rewrite (rep_e2 _ _ _ _ _ _ _ HR), (rep_e3 _ _ _ _ _ _ _ HR).
    replace (y0 + heights E - y0) with (heights E) by ring.
    destruct (old_scan_spec l x y (_rows l) 0 (2 * heights E) 0) as [[E1 E2]|(k & row & E1 & E2 & E3 & E4 & E5)];
      cbv zeta in *.
    - destruct E as [|s E'] eqn:EE; [congruence|]. rewrite <- EE in *.
      exists 0%nat, s. split; [exact E1|]. split; [rewrite EE; reflexivity|]. right. split; [reflexivity|].
      intros k t dk Ht Hd. pose proof (rows_nth k) as N. rewrite Ht in N. cbn [option_map] in N.
      pose proof (E2 k _ N) as L. destruct (row_d_dist _ _ _ _ _ Ht Hd) as [[V D]|[V D]]; cbv zeta in *; lra.
    - pose proof (rows_nth k) as N. rewrite E2 in N. destruct (nth_error E k) as [s|] eqn:Hs; [|discriminate N].
      cbn [option_map] in N. injection N as Nr. subst row.
      exists k, s. split; [rewrite E1; lia|]. split; [exact Hs|]. left.
      destruct (row_dist_ex k s x y Hs) as [d Hd]. exists d. split; [exact Hd|].
      pose proof (row_d_dist _ _ _ _ _ Hs Hd) as V. cbv zeta in V.
      split; [destruct V as [[V D]|[V D]]; [left|right]; lra|].
      intros m t dm Ht Hm. pose proof (rows_nth m) as M. rewrite Ht in M. cbn [option_map] in M.
      pose proof (row_d_dist _ _ _ _ _ Ht Hm) as W. cbv zeta in W. split.
      + destruct E5 as [E5|E5].
        * destruct V as [[V D]|[V D]]; [|lra]. destruct W as [[W F]|[W F]]; lra.
        * specialize (E5 m _ M). destruct V as [[V D]|[V D]]; destruct W as [[W F]|[W F]]; lra.
      + intros Hlt. destruct (E4 m _ Hlt M) as [F1 F2]. specialize (F2 ltac:(lra)).
        destruct V as [[V D]|[V D]]; destruct W as [[W F]|[W F]]; lra.
  Qed.

  Lemma old_pad_ok : forall i s x, nth_error E i = Some s ->
    exists j, old_pad l (row_at x0 x1 (bottom y0 E i) s) x = Ok j /\ pad_across x0 x1 s x j /\
      (0 < pitch x0 x1 s -> pad_in_row l (row_at x0 x1 (bottom y0 E i) s) x = Ok j).
  Proof.
    intros i s x Hs.
    destruct (pad_in_row_ok _ _ _ _ _ _ _ HR HI _ _ x Hs) as (j & Hj & Hr & Hl & Hrt & Hc).
    destruct (pitch_nonneg HR _ _ Hs) as (Hp & Hw & Hn). pose proof (width_ok _ _ Hs) as Hx.
    assert (HnR : 0 < IZR (s_n s)) by (apply IZR_lt; lia).
    assert (Hcl : forall k, cell_left x0 x1 s (k + 1) = cell_left x0 x1 s k + pitch x0 x1 s).
    { intros k. unfold cell_left. rewrite plus_IZR. ring. }
    unfold old_pad. unfold pad_in_row in *. cbn [row_at LeftOffset RightOffset WidthPerPad NPad] in *.
    rewrite (rep_e0 _ _ _ _ _ _ _ HR), (rep_e1 _ _ _ _ _ _ _ HR) in *.
    destruct (Rltb_spec x (x0 + s_left s)) as [A|A].
    { exists 0%Z. split; [reflexivity|]. split.
      - split; [lia|]. split; [reflexivity|]. split; intros; lra.
      - intros _. destruct (Rleb_spec x (x0 + s_left s)); [reflexivity|lra]. }
    destruct (Rleb_spec (x1 - s_right s) x) as [B|B].
    { exists (s_n s - 1)%Z. split; [reflexivity|]. split.
      - split; [lia|]. split; [intros; lra|]. split; [reflexivity|]. intros Q. unfold cell_left. rewrite minus_IZR.
        replace ((IZR (s_n s) - 1) * pitch x0 x1 s) with (IZR (s_n s) * pitch x0 x1 s - pitch x0 x1 s) by ring. lra.
      - intros Hpp. destruct (Rleb_spec x (x0 + s_left s)) as [C|C]; [|reflexivity].
        exfalso. pose proof (Rmult_lt_0_compat _ _ HnR Hpp). lra. }
    destruct (Rleb_spec x (x0 + s_left s)) as [C|C].
    - assert (x = x0 + s_left s) by lra. subst x.
      assert (Hpp : 0 < pitch x0 x1 s).
      { destruct Hp as [|Hp]; auto. rewrite <- Hp in Hn. lra. }
      destruct (Reqb_spec (pitch x0 x1 s) 0); [lra|]. rewrite Rminus_diag_eq by reflexivity.
      unfold Rdiv. rewrite Rmult_0_l. unfold to_int. rewrite (Ztrunc_IZR 0). injection Hj as <-.
      exists 0%Z. split; [reflexivity|]. split; [|intros _; reflexivity].
      split; [lia|]. split; [reflexivity|]. split; [intros; lra|]. intros _. unfold cell_left. lra.
    - exists j. split; [exact Hj|]. split; [|intros _; exact Hj].
      split; [exact Hr|]. split; [intros; lra|]. split; [intros; lra|]. intros Q. specialize (Hc Q). rewrite Hcl in Hc. exact Hc.
  Qed.

  Lemma extent_ok : E <> [] -> x0 <= x1.
  Proof.
    intros Hne. destruct E as [|s E'] eqn:EE; [congruence|]. rewrite <- EE in *.
    assert (Hs : nth_error E 0 = Some s) by (rewrite EE; reflexivity).
    pose proof (width_ok _ _ Hs). destruct (good_nth HR _ _ Hs) as (H1&H2&H3&H4&H5&H6&H7&H8). lra.
  Qed.

  Lemma old_ok : forall x y, E <> [] ->
    exists i s j p, getNearestPadOld l x y = Ok p /\ getPadIndex l (Z.of_nat i) j = Ok p /\
      nth_error E i = Some s /\ pad_across x0 x1 s (clampR x0 x1 x) j /\
      found (clampR x0 x1 x) (clampR y0 (y0 + heights E) y) i s /\
      (0 < pitch x0 x1 s -> pad_in_row l (row_at x0 x1 (bottom y0 E i) s) (clampR x0 x1 x) = Ok j).
  Proof.
    intros x y Hne. pose proof (extent_ok Hne) as Hx. pose proof heights_nn as Hh.
    unfold getNearestPadOld. rewrite (rep_e0 _ _ _ _ _ _ _ HR), (rep_e1 _ _ _ _ _ _ _ HR).
    rewrite clampR_eq by exact Hx.
    destruct (old_scan_row (clampR x0 x1 x) (clampR y0 (y0 + heights E) y) Hne) as (i & s & Hi & Hs & Hf).
    rewrite (rep_e3 _ _ _ _ _ _ _ HR) in *. rewrite (rep_e2 _ _ _ _ _ _ _ HR) in *.
    rewrite clampR_eq by lra. rewrite Hi. rewrite (sub_row HR _ _ Hs). cbn [rbind].
    destruct (old_pad_ok _ _ (clampR x0 x1 x) Hs) as (j & Hj & Ha & Hn). rewrite Hj. cbn [rbind].
    pose proof (getPadIndex_code HR HI i j s Hs (proj1 Ha)) as Hc.
    exists i, s, j. eexists. split; [exact Hc|]. split; [exact Hc|]. split; [exact Hs|]. split; [exact Ha|]. split; [exact Hf|exact Hn].
  Qed.
End Old.
