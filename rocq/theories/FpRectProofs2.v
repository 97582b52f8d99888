(** The rectangular layout in double arithmetic: the row search never leaves the rows. *)
From Coq Require Import ZArith List String Bool Reals Lra Lia.
From Flocq Require Import Core Relative.
From Verif Require Import Base RBase ListExtra NumModel NumSpec NumProofs FpModel FpSpec FpProofs
  RectModel RectSpec RectProofs RectProofs2 RectProofs3 FpRectModel FpRectSpec FpRectProofs.
Import ListNotations.
Open Scope R_scope.

(** ** rounding *)
Definition grid (v : R) : Prop := exists k : Z, v = IZR k * bpow radix2 (-1074).
Lemma grid_double x : is_double x -> grid x.
Proof.
  intros (m & e & -> & _ & E). exists (m * 2 ^ (e + 1074))%Z. rewrite mult_IZR, (IZR_Zpower radix2) by lia.
  rewrite Rmult_assoc, <- bpow_plus. replace (e + 1074 + -1074)%Z with e by lia. now rewrite bpow_powerRZ.
Qed.
Lemma grid_plus x y : grid x -> grid y -> grid (x + y).
Proof. intros [a ->] [b ->]. exists (a + b)%Z. rewrite plus_IZR. ring. Qed.
Lemma grid_minus x y : grid x -> grid y -> grid (x - y).
Proof. intros [a ->] [b ->]. exists (a - b)%Z. rewrite minus_IZR. ring. Qed.
Lemma grid_mult n x : grid x -> grid (IZR n * x).
Proof. intros [a ->]. exists (n * a)%Z. rewrite mult_IZR. ring. Qed.

Lemma bpow_small : bpow radix2 (-1022) = bpow radix2 52 * bpow radix2 (-1074).
Proof. rewrite <- bpow_plus. reflexivity. Qed.
Lemma rel_normal v : bpow radix2 (-1022) <= Rabs v -> Rabs (to_double v - v) <= ulp1 * Rabs v.
Proof.
  intros H. pose proof (relative_error_N_FLT radix2 (-1074) 53 ltac:(reflexivity) (fun x => negb (Z.even x)) v H) as E.
  unfold to_double, ulp1. replace (/ 9007199254740992) with (/ 2 * bpow radix2 (-53 + 1)); [exact E|]. cbn. lra.
Qed.
Lemma rel_grid v : grid v -> Rabs (to_double v - v) <= ulp1 * Rabs v.
Proof.
  intros [k ->]. destruct (Rle_or_lt (bpow radix2 (-1022)) (Rabs (IZR k * bpow radix2 (-1074)))) as [H|H]; [now apply rel_normal|].
  rewrite rnd_id.
  - replace (IZR k * _ - IZR k * _) with 0 by ring. rewrite Rabs_R0. apply Rmult_le_pos; [unfold ulp1; lra|apply Rabs_pos].
  - exists k, (-1074)%Z. split; [now rewrite bpow_powerRZ|]. split; [|lia].
    rewrite Rabs_mult, (Rabs_pos_eq (bpow radix2 (-1074))), bpow_small in H by apply bpow_ge_0.
    apply Rmult_lt_reg_r in H; [|apply bpow_gt_0]. rewrite <- abs_IZR in H.
    change (bpow radix2 52) with (IZR (2 ^ 52)) in H. apply lt_IZR in H. lia.
Qed.
Lemma bpow_min_double : is_double (bpow radix2 (-1074)).
Proof. exists 1%Z, (-1074)%Z. split; [rewrite bpow_powerRZ; change (IZR radix2) with 2; ring|]. split; [reflexivity|lia]. Qed.
Lemma rnd_pos v : grid v -> 0 < v -> 0 < to_double v.
Proof.
  intros [k ->] H. assert (1 <= IZR k).
  { apply IZR_le. assert (0 < k)%Z; [|lia]. apply lt_IZR. pose proof (bpow_gt_0 radix2 (-1074)).
    apply (Rmult_lt_reg_r (bpow radix2 (-1074))); lra. }
  apply Rlt_le_trans with (bpow radix2 (-1074)); [apply bpow_gt_0|].
  rewrite <- (rnd_id _ bpow_min_double) at 1. apply rnd_le. pose proof (bpow_gt_0 radix2 (-1074)). nra.
Qed.
Lemma rnd_nonneg v : 0 <= v -> 0 <= to_double v.
Proof. intros H. rewrite <- rnd_0. now apply rnd_le. Qed.
Lemma rnd_up x v : is_double x -> v <= x -> to_double v <= x.
Proof. intros D H. rewrite <- (rnd_id x D). now apply rnd_le. Qed.
Lemma rnd_lo x v : is_double x -> x <= v -> x <= to_double v.
Proof. intros D H. rewrite <- (rnd_id x D) at 1. now apply rnd_le. Qed.
Lemma double_int n : (Z.abs n < 2 ^ 53)%Z -> is_double (IZR n).
Proof. intros H. exists n, 0%Z. split; [cbn; ring|]. split; [exact H|lia]. Qed.
Lemma double_1 : is_double 1.
Proof. apply (double_int 1). reflexivity. Qed.
Lemma fsub_pos x y : is_double x -> is_double y -> x < y -> 0 < fsub y x.
Proof. intros X Y H. apply rnd_pos; [apply grid_minus; now apply grid_double|lra]. Qed.
Lemma fsub_flip x y : fsub x y = - fsub y x.
Proof. unfold fsub. rewrite <- rnd_opp. f_equal. ring. Qed.
Lemma fsub_nonneg x y : x <= y -> 0 <= fsub y x.
Proof. intros H. apply rnd_nonneg. lra. Qed.
Lemma fsub_le x y a b : x <= y -> b <= a -> fsub x a <= fsub y b.
Proof. intros. apply rnd_le. lra. Qed.

Lemma Zceil_range p k : 0 <= p <= IZR k -> (0 <= Zceil p <= k)%Z.
Proof.
  intros H. split; [|apply Zceil_glb; lra]. pose proof (Zceil_ub p). apply le_IZR. destruct (Z_lt_le_dec (Zceil p) 0) as [L|L]; [|now apply IZR_le].
  assert (IZR (Zceil p) <= -1) by (apply IZR_le; lia). lra.
Qed.
(** ** one turn of the loop *)
Definition hh (s : srow) : R := fdiv (s_h s) 2.
Lemma hh_nonneg s : 0 <= s_h s -> 0 <= hh s.
Proof. intros. apply rnd_nonneg. lra. Qed.

(** the quotient of lines 412, moving up: y above the row with centre [c] *)
Definition up_param (rem : Z) (y c e h : R) : R := fmul (IZR rem) (fdiv (fsub (fsub y c) h) (fsub (fsub e c) h)).
Lemma up_param_range rem y c e h : (0 <= rem < 2 ^ 53)%Z -> is_double h -> y <= e -> h < fsub y c ->
  0 < fsub (fsub y c) h <= fsub (fsub e c) h /\ 0 <= up_param rem y c e h <= IZR rem.
Proof.
  intros Hr Hh Hy Hlt.
  assert (P : 0 < fsub (fsub y c) h) by (apply fsub_pos; auto; apply rnd_double).
  assert (Q : fsub (fsub y c) h <= fsub (fsub e c) h) by (apply fsub_le; [apply fsub_le; lra|lra]).
  split; [lra|]. unfold up_param, fmul, fdiv.
  set (a := fsub (fsub y c) h) in *. set (b := fsub (fsub e c) h) in *.
  assert (A : 0 <= a / b <= 1).
  { split; [apply Rmult_le_pos; [lra|apply Rlt_le, Rinv_0_lt_compat; lra]|]. apply (Rmult_le_reg_r b); [lra|]. unfold Rdiv. rewrite Rmult_assoc, Rinv_l; lra. }
  assert (B : 0 <= to_double (a / b) <= 1).
  { split; [now apply rnd_nonneg|]. apply rnd_up; [apply double_1|lra]. }
  assert (0 <= IZR rem) by (apply IZR_le; lia).
  split; [apply rnd_nonneg; nra|]. apply rnd_up; [apply double_int; lia|nra].
Qed.
(** moving down *)
Definition down_param (rem : Z) (y c e h : R) : R := fmul (IZR rem) (fdiv (fsub (fsub c y) h) (fsub (fsub c e) h)).
Lemma down_param_range rem y c e h : (0 <= rem < 2 ^ 53)%Z -> is_double h -> e <= y -> h < fsub c y ->
  0 < fsub (fsub c y) h <= fsub (fsub c e) h /\ 0 <= down_param rem y c e h <= IZR rem.
Proof.
  intros Hr Hh Hy Hlt.
  assert (P : 0 < fsub (fsub c y) h) by (apply fsub_pos; auto; apply rnd_double).
  assert (Q : fsub (fsub c y) h <= fsub (fsub c e) h) by (apply fsub_le; [apply fsub_le; lra|lra]).
  split; [lra|]. unfold down_param, fmul, fdiv.
  set (a := fsub (fsub c y) h) in *. set (b := fsub (fsub c e) h) in *.
  assert (A : 0 <= a / b <= 1).
  { split; [apply Rmult_le_pos; [lra|apply Rlt_le, Rinv_0_lt_compat; lra]|]. apply (Rmult_le_reg_r b); [lra|]. unfold Rdiv. rewrite Rmult_assoc, Rinv_l; lra. }
  assert (B : 0 <= to_double (a / b) <= 1).
  { split; [now apply rnd_nonneg|]. apply rnd_up; [apply double_1|lra]. }
  assert (0 <= IZR rem) by (apply IZR_le; lia).
  split; [apply rnd_nonneg; nra|]. apply rnd_up; [apply double_int; lia|nra].
Qed.

Section search.
Variables (x0 x1 y0 : R) (E : list srow) (rp : bool) (l : rect).
Hypothesis HR : drep x0 x1 y0 E rp l.
Hypothesis HF : full_height E.
Hypothesis HN : (Z.of_nat (List.length E) < 2147483648)%Z.
Let n := Z.of_nat (List.length E).
Let eT := top_edge y0 E.

Definition dcentre (i : nat) (s : srow) : R := fadd (edge y0 E i) (hh s).

Lemma drow_nth i s : nth_error E i = Some s -> nthZ (_rows l) (Z.of_nat i) = Some (drow x0 x1 (edge y0 E i) s).
Proof. intros H. rewrite nthZ_of_nat, (dr_rows _ _ _ _ _ _ HR), drows_nth, H. reflexivity. Qed.
Lemma dlen : List.length (_rows l) = List.length E.
Proof. rewrite (dr_rows _ _ _ _ _ _ HR). apply drows_length. Qed.
Lemma good_nth i s : nth_error E i = Some s -> good_d x0 x1 s /\ s_padH s = s_h s.
Proof.
  intros H. apply nth_error_In in H. split; [|now apply (proj1 (Forall_forall _ _) HF)].
  now apply (proj1 (Forall_forall _ _) (dr_good _ _ _ _ _ _ HR)).
Qed.

Lemma step_accept i s y f : nth_error E i = Some s -> Rabs (fsub y (dcentre i s)) <= hh s ->
  dsearch_row (S f) l y (Z.of_nat i) = Some (Ok (Z.of_nat i)).
Proof.
  intros H A. cbn [dsearch_row]. rewrite (drow_nth _ _ H). cbn [drow PadHeight Height Center].
  destruct (good_nth _ _ H) as (_ & ->). fold (hh s). fold (dcentre i s).
  now rewrite (proj2 (Rleb_true _ _) A).
Qed.
Lemma step_up i s y f : nth_error E i = Some s -> y <= eT -> hh s < fsub y (dcentre i s) ->
  dsearch_row (S f) l y (Z.of_nat i) =
  let p := up_param (n - Z.of_nat i - 1) y (dcentre i s) eT (hh s) in
  if (Zceil p =? 0)%Z then Some (Ok (Z.of_nat i)) else dsearch_row f l y (Z.of_nat i + Zceil p).
Proof.
  intros H Hy A. assert (Hi : (i < List.length E)%nat) by (apply nth_error_Some; congruence).
  destruct (good_nth _ _ H) as (G & Gp).
  assert (Hp : 0 <= hh s) by (apply hh_nonneg; apply G).
  destruct (up_param_range (n - Z.of_nat i - 1) y (dcentre i s) eT (hh s)) as (P1 & P2); [unfold n; lia|apply rnd_double|exact Hy|exact A|].
  cbn [dsearch_row]. rewrite (drow_nth _ _ H). cbn [drow PadHeight Height Center]. rewrite Gp. fold (hh s). fold (dcentre i s).
  assert (L1 : Rleb (Rabs (fsub y (dcentre i s))) (hh s) = false) by (apply Rleb_false; rewrite Rabs_pos_eq; lra).
  rewrite !L1. assert (L2 : Rltb (fsub y (dcentre i s)) 0 = false) by (apply Rltb_false; lra). rewrite L2.
  rewrite (dr_e3 _ _ _ _ _ _ HR). fold eT. rewrite dlen. fold n.
  assert (L3 : Reqb (fsub (fsub eT (dcentre i s)) (hh s)) 0 = false) by (apply Reqb_false; lra). rewrite L3.
  fold (up_param (n - Z.of_nat i - 1) y (dcentre i s) eT (hh s)). cbv zeta.
  set (p := up_param _ _ _ _ _) in *.
  assert (L4 : Rltb p 0 = false) by (apply Rltb_false; lra). rewrite L4.
  assert (L5 : (0 <= Zceil p <= n - Z.of_nat i - 1)%Z).
  { now apply Zceil_range. }
  assert (L6 : int_okb (Zceil p) = true) by (apply int_okb_true; unfold int_ok, n in *; lia). rewrite L6.
  reflexivity.
Qed.
Lemma step_down i s y f : nth_error E i = Some s -> y0 <= y -> hh s < fsub (dcentre i s) y ->
  dsearch_row (S f) l y (Z.of_nat i) =
  let p := down_param (Z.of_nat i) y (dcentre i s) y0 (hh s) in
  if (Zceil p =? 0)%Z then Some (Ok (Z.of_nat i)) else dsearch_row f l y (Z.of_nat i - Zceil p).
Proof.
  intros H Hy A. assert (Hi : (i < List.length E)%nat) by (apply nth_error_Some; congruence).
  destruct (good_nth _ _ H) as (G & Gp).
  assert (Hp : 0 <= hh s) by (apply hh_nonneg; apply G).
  destruct (down_param_range (Z.of_nat i) y (dcentre i s) y0 (hh s)) as (P1 & P2); [unfold n in *; lia|apply rnd_double|exact Hy|exact A|].
  cbn [dsearch_row]. rewrite (drow_nth _ _ H). cbn [drow PadHeight Height Center]. rewrite Gp. fold (hh s). fold (dcentre i s).
  assert (FF : fsub y (dcentre i s) = - fsub (dcentre i s) y) by apply fsub_flip. rewrite !FF, !Rabs_Ropp.
  assert (L1 : Rleb (Rabs (fsub (dcentre i s) y)) (hh s) = false) by (apply Rleb_false; rewrite Rabs_pos_eq; lra).
  rewrite !L1. assert (L2 : Rltb (- fsub (dcentre i s) y) 0 = true) by (apply Rltb_true; lra). rewrite L2.
  rewrite (dr_e2 _ _ _ _ _ _ HR).
  assert (L3 : Reqb (fsub (fsub (dcentre i s) y0) (hh s)) 0 = false) by (apply Reqb_false; lra). rewrite L3.
  assert (FO : fadd (- fsub (dcentre i s) y) (hh s) = - fsub (fsub (dcentre i s) y) (hh s)).
  { unfold fadd, fsub at 2. rewrite <- rnd_opp. f_equal. ring. } rewrite FO.
  assert (FD : forall a b, fdiv (- a) b = - fdiv a b).
  { intros a b. unfold fdiv. rewrite <- rnd_opp. f_equal. unfold Rdiv. ring. } rewrite FD.
  assert (FM : forall a b, fmul a (- b) = - fmul a b).
  { intros a b. unfold fmul. rewrite <- rnd_opp. f_equal. ring. } rewrite FM.
  fold (down_param (Z.of_nat i) y (dcentre i s) y0 (hh s)). cbv zeta.
  set (p := down_param _ _ _ _ _) in *.
  assert (L5 : (0 <= Zceil p <= Z.of_nat i)%Z).
  { now apply Zceil_range. }
  assert (FZ : (if Rltb (- p) 0 then Zfloor (- p) else Zceil (- p)) = (- Zceil p)%Z).
  { rcase.
    - unfold Zceil. lia.
    - assert (p = 0) as -> by lra. rewrite Ropp_0. replace 0 with (IZR 0) by reflexivity. now rewrite Zceil_IZR. }
  rewrite FZ.
  assert (L6 : int_okb (- Zceil p) = true) by (apply int_okb_true; unfold int_ok, n in *; lia). rewrite L6.
  replace (- Zceil p =? 0)%Z with (Zceil p =? 0)%Z by (destruct (Z.eqb_spec (Zceil p) 0), (Z.eqb_spec (- Zceil p) 0); lia).
  reflexivity.
Qed.

(** the three cases *)
Lemma cases i s y : hh s < fsub y (dcentre i s) \/ hh s < fsub (dcentre i s) y \/ Rabs (fsub y (dcentre i s)) <= hh s.
Proof.
  destruct (Rle_or_lt (Rabs (fsub y (dcentre i s))) (hh s)) as [H|H]; [auto|].
  rewrite (fsub_flip (dcentre i s) y). destruct (Rle_or_lt 0 (fsub y (dcentre i s))).
  - rewrite Rabs_pos_eq in H by lra. auto.
  - rewrite Rabs_left in H by lra. auto.
Qed.

(** why the search may stop in row [i] *)
Definition stops (y : R) (i : nat) : Prop := exists s, nth_error E i = Some s /\
  (Rabs (fsub y (dcentre i s)) <= hh s \/
   hh s < fsub y (dcentre i s) /\ Zceil (up_param (n - Z.of_nat i - 1) y (dcentre i s) eT (hh s)) = 0%Z \/
   hh s < fsub (dcentre i s) y /\ Zceil (down_param (Z.of_nat i) y (dcentre i s) y0 (hh s)) = 0%Z).

Lemma search_safe : forall fuel y r, y0 <= y <= eT -> (0 <= r < n)%Z ->
  dsearch_row fuel l y r = None \/
  exists i, dsearch_row fuel l y r = Some (Ok (Z.of_nat i)) /\ stops y i.
Proof.
  induction fuel; intros y r Hy Hr; [now left|].
  assert (exists i s, r = Z.of_nat i /\ nth_error E i = Some s) as (i & s & -> & H).
  { exists (Z.to_nat r). destruct (nth_error E (Z.to_nat r)) eqn:Es; [exists s; split; [lia|reflexivity]|].
    apply nth_error_None in Es. unfold n in Hr. lia. }
  destruct (good_nth _ _ H) as (G & Gp).
  destruct (cases i s y) as [A|[A|A]].
  - rewrite (step_up _ _ _ _ H (proj2 Hy) A). cbv zeta.
    destruct (up_param_range (n - Z.of_nat i - 1) y (dcentre i s) eT (hh s)) as (P1 & P2); [unfold n in *; lia|apply rnd_double|tauto|exact A|].
    destruct (Z.eqb_spec (Zceil (up_param (n - Z.of_nat i - 1) y (dcentre i s) eT (hh s))) 0) as [Z0|Z0].
    + right. exists i. split; [reflexivity|]. exists s. auto.
    + apply IHfuel; [exact Hy|]. set (p := up_param _ _ _ _ _) in *.
      assert (L5 : (0 <= Zceil p <= n - Z.of_nat i - 1)%Z); [|lia].
      { now apply Zceil_range. }
  - rewrite (step_down _ _ _ _ H (proj1 Hy) A). cbv zeta.
    destruct (down_param_range (Z.of_nat i) y (dcentre i s) y0 (hh s)) as (P1 & P2); [unfold n in *; lia|apply rnd_double|tauto|exact A|].
    destruct (Z.eqb_spec (Zceil (down_param (Z.of_nat i) y (dcentre i s) y0 (hh s))) 0) as [Z0|Z0].
    + right. exists i. split; [reflexivity|]. exists s. auto.
    + apply IHfuel; [exact Hy|]. set (p := down_param _ _ _ _ _) in *.
      assert (L5 : (0 <= Zceil p <= Z.of_nat i)%Z); [|lia].
      { now apply Zceil_range. }
  - right. exists i. split; [now apply (step_accept _ s)|]. exists s. auto.
Qed.

(** the first guess *)
Lemma guess_safe y : is_double y0 -> is_double eT -> y0 < eT -> y0 <= y <= eT -> (0 < n)%Z -> (0 <= dguess l y < n)%Z.
Proof.
  intros D0 DT HT Hy Hn. unfold dguess. rewrite dlen, (dr_e2 _ _ _ _ _ _ HR), (dr_e3 _ _ _ _ _ _ HR). fold n. fold eT.
  assert (P : 0 < fsub eT y0) by now apply fsub_pos.
  assert (Q : 0 <= fsub y y0 <= fsub eT y0) by (split; [apply fsub_nonneg|apply fsub_le]; lra).
  set (D := fsub eT y0) in *. set (d := fsub y y0) in *.
  assert (N0 : 0 <= IZR (n - 1)) by (apply IZR_le; lia).
  assert (N1 : IZR (n - 1) <= 2147483647) by (apply IZR_le; lia).
  assert (M : 0 <= fmul (IZR (n - 1)) d <= IZR (n - 1) * D * (1 + ulp1)).
  { split; [apply rnd_nonneg; nra|]. apply Rle_trans with (fmul (IZR (n - 1)) D); [apply rnd_le; nra|].
    pose proof (rel_grid (IZR (n - 1) * D)) as G. 
    assert (GG : grid (IZR (n - 1) * D)) by (apply grid_mult, grid_double, rnd_double). specialize (G GG).
    rewrite (Rabs_pos_eq (IZR (n - 1) * D)) in G by nra. apply Rabs_le_inv in G. unfold fmul. lra. }
  set (m := fmul (IZR (n - 1)) d) in *.
  assert (V : 0 <= m / D <= IZR (n - 1) * (1 + ulp1)).
  { split; [apply Rmult_le_pos; [lra|apply Rlt_le, Rinv_0_lt_compat; lra]|].
    apply (Rmult_le_reg_r D); [lra|]. unfold Rdiv. rewrite Rmult_assoc, Rinv_l by lra. nra. }
  assert (W : 0 <= fdiv m D < IZR (n - 1) + 1 / 2).
  { split; [apply rnd_nonneg; lra|]. pose proof (rnd_rel (m / D)) as G. rewrite (Rabs_pos_eq (m / D)) in G by lra.
    apply Rabs_le_inv in G. unfold fdiv. unfold ulp1 in *. nra. }
  set (v := fdiv m D) in *. unfold c_round.
  pose proof (Znearest_half (Zle_bool 0) v) as Z. apply Rabs_le_inv in Z.
  assert (IZR (Znearest (Zle_bool 0) v) < IZR n) by (rewrite minus_IZR in W; lra).
  assert (-1 < IZR (Znearest (Zle_bool 0) v)) by lra.
  apply lt_IZR in H. apply lt_IZR in H0. lia.
Qed.
End search.

Lemma edge_double : forall E y0 i, is_double y0 -> is_double (edge y0 E i).
Proof. induction E; intros y0 i D; destruct i; cbn [edge]; auto. apply IHE. apply rnd_double. Qed.
