(** Calorimeter layers in double arithmetic. *)
From Coq Require Import ZArith List Reals Lra Lia.
From Flocq Require Import Core.
From Verif Require Import Base RBase ListExtra NumModel NumSpec NumProofs FpModel FpProofs FpRectProofs2 CaloModel CaloSpec CaloProofs
  FpCaloModel FpCaloSpec.
Import ListNotations.
Open Scope R_scope.

Definition dnext (v : layout) : R := match back_ v with None => 0 | Some b => fadd (L_Distance b) (L_Thickness b) end.

(** the layers a history appends *)
Fixpoint dappended (pos : R) (ks : list calo_call) : layout :=
  match ks with
  | [] => []
  | CPos d t c0 c1 a :: r => mkLayer d t a c0 c1 :: dappended (fadd d t) r
  | CAdd t c0 c1 a :: r => mkLayer pos t a c0 c1 :: dappended (fadd pos t) r
  | CExt :: r => dappended pos r
  end.

Lemma dext_ok : forall c, exists c' v, dgetExtent c = SOk c' v /\ c_layout c' = c_layout c /\
  c_type c' = c_type c /\ c_sym c' = c_sym c /\ c_phi c' = c_phi c /\
  (c_layout c = [] -> c' = c /\ v = c_extent c) /\
  (c_layout c <> [] -> v = c_extent c' /\
     c_extent c' = match c_type c with BARREL => set_nth 1 (dnext (c_layout c)) (c_extent c)
                                     | ENDCAP => set_nth 3 (dnext (c_layout c)) (c_extent c) end).
Proof.
  intros c. unfold dgetExtent, getNLayers. destruct (Z.ltb_spec 0 (Z.of_nat (List.length (c_layout c)))) as [H|H].
  - unfold getDistance, getThickness, at_.
    replace (Z.of_nat (List.length (c_layout c)) - 1)%Z with (Z.of_nat (List.length (c_layout c) - 1)) by lia.
    rewrite nthZ_of_nat. destruct (nth_error (c_layout c) (List.length (c_layout c) - 1)) eqn:E.
    + cbn [rmap rbind]. eexists; eexists; split; [reflexivity|]. cbn. do 4 (split; [reflexivity|]). split.
      * intros E0. rewrite E0 in H. cbn in H. lia.
      * intros _. split; [reflexivity|]. unfold dnext, back_. rewrite E. destruct (c_type c); reflexivity.
    + apply nth_error_None in E. lia.
  - exists c, (c_extent c). do 5 (split; [reflexivity|]). split; [auto|].
    intros N. destruct (c_layout c); [congruence|cbn in H; lia].
Qed.
Lemma ddo_layout : forall c k, c_layout (dcalo_do c k) = c_layout c ++ dappended (dnext (c_layout c)) [k].
Proof.
  intros c [t c0 c1 a|d t c0 c1 a|]; cbn; try reflexivity.
  destruct (dext_ok c) as [c' [v [E [EL _]]]]. rewrite E. now rewrite EL, app_nil_r.
Qed.
Lemma dappended_cons : forall k r pos, dappended pos (k :: r) = dappended pos [k] ++
  dappended (match k with CPos d t _ _ _ => fadd d t | CAdd t _ _ _ => fadd pos t | CExt => pos end) r.
Proof. destruct k; reflexivity. Qed.
Lemma dnext_do : forall c k, dnext (c_layout (dcalo_do c k)) =
  match k with CPos d t _ _ _ => fadd d t | CAdd t _ _ _ => fadd (dnext (c_layout c)) t | CExt => dnext (c_layout c) end.
Proof.
  intros. rewrite ddo_layout. destruct k; cbn; unfold dnext at 1; rewrite ?back_snoc; cbn; auto.
  now rewrite app_nil_r.
Qed.
Lemma drun_layout : forall h c, c_layout (dcalo_run c h) = c_layout c ++ dappended (dnext (c_layout c)) h.
Proof.
  induction h as [|k r IH]; intros c.
  - cbn. now rewrite app_nil_r.
  - change (dcalo_run c (k :: r)) with (dcalo_run (dcalo_do c k) r). rewrite IH, dnext_do, ddo_layout, (dappended_cons k r).
    now rewrite <- app_assoc.
Qed.
Lemma fresh_layout c : fresh c -> c_layout c = [].
Proof. intros [(?&?&?&?&->)|(?&?&?&?&?&->)]; reflexivity. Qed.
Lemma drun_fresh c h : fresh c -> c_layout (dcalo_run c h) = dappended 0 h.
Proof. intros F. rewrite drun_layout, (fresh_layout c F). reflexivity. Qed.

Lemma dappended_length : forall h pos, List.length (dappended pos h) = List.length (layers_of h).
Proof. induction h as [|[] h IH]; intros pos; cbn; auto. Qed.
Lemma dappended_nth : forall h pos i k, nth_error (layers_of h) i = Some k ->
  exists L, nth_error (dappended pos h) i = Some L /\
  match k with
  | CAdd t c0 c1 a => L = mkLayer (match i with O => pos
                                    | S j => match nth_error (dappended pos h) j with
                                             | Some P => fadd (L_Distance P) (L_Thickness P) | None => 0 end end) t a c0 c1
  | CPos d t c0 c1 a => L = mkLayer d t a c0 c1
  | CExt => False
  end.
Proof.
  induction h as [|k h IH]; intros pos i q E; [destruct i; discriminate|].
  destruct k as [t c0 c1 a|d t c0 c1 a|]; [| |exact (IH pos i q E)]; destruct i as [|i]; cbn in E |- *.
  - injection E as <-. eexists. split; reflexivity.
  - destruct (IH (fadd pos t) i q E) as (L & A & B). exists L. split; [exact A|].
    destruct q; try exact B. subst L. destruct i; reflexivity.
  - injection E as <-. eexists. split; reflexivity.
  - destruct (IH (fadd d t) i q E) as (L & A & B). exists L. split; [exact A|].
    destruct q; try exact B. subst L. destruct i; reflexivity.
Qed.
Lemma at_nth {A B} (f : A -> B) (v : list A) i x : rmap f (at_ v (Z.of_nat i)) = Ok x <-> exists L, nth_error v i = Some L /\ f L = x.
Proof.
  unfold at_. rewrite nthZ_of_nat. destruct (nth_error v i) as [L|]; cbn; split.
  - intros E. injection E as <-. eauto.
  - intros (M & E & <-). now injection E as <-.
  - discriminate.
  - intros (M & E & _). discriminate.
Qed.
Lemma layer_is_nth v i d t : layer_is v i d t <-> exists L, nth_error v i = Some L /\ L_Distance L = d /\ L_Thickness L = t.
Proof.
  unfold layer_is, getDistance, getThickness. rewrite !at_nth. split.
  - intros [(L & A & B) (M & C & D)]. rewrite A in C. injection C as <-. eauto.
  - intros (L & A & B & C). split; eauto.
Qed.
(** the main step: an added layer starts where the one before ends, rounded *)
Lemma step_next c h i d t d' t' : fresh c -> is_added h (S i) ->
  layer_is (c_layout (dcalo_run c h)) i d t -> layer_is (c_layout (dcalo_run c h)) (S i) d' t' -> d' = to_double (d + t).
Proof.
  intros F (q & c0 & c1 & a & A) X Y. rewrite (drun_fresh c h F) in X, Y. apply layer_is_nth in X, Y.
  destruct X as (L & X & <- & <-), Y as (M & Y & <- & <-).
  destruct (dappended_nth h 0 (S i) _ A) as (N & Z1 & Z2). rewrite Y in Z1. injection Z1 as <-. rewrite X in Z2. subst M. reflexivity.
Qed.
Lemma layers_double : forall h pos, Forall double_args h -> is_double pos ->
  Forall (fun L => is_double (L_Distance L) /\ is_double (L_Thickness L)) (dappended pos h).
Proof.
  induction h as [|k h IH]; intros pos F D; [constructor|]. apply Forall_cons_iff in F. destruct F as [F1 F2].
  destruct k; cbn [dappended double_args] in *; try constructor; cbn [L_Distance L_Thickness]; auto; try apply IH; auto; apply rnd_double.
Qed.
Lemma layer_double c h i d t : fresh c -> Forall double_args h -> layer_is (c_layout (dcalo_run c h)) i d t -> is_double d /\ is_double t.
Proof.
  intros F H X. rewrite (drun_fresh c h F) in X. apply layer_is_nth in X. destruct X as (L & X & <- & <-).
  assert (G := layers_double h 0 H double_0). rewrite Forall_forall in G. apply G. apply nth_error_In in X. exact X.
Qed.
Lemma sum_rel x y : is_double x -> is_double y -> Rabs (to_double (x + y) - (x + y)) <= u * Rabs (x + y).
Proof. intros X Y. apply rel_grid. apply grid_plus; apply grid_double; assumption. Qed.
(** a thickness below half the spacing is lost *)
Lemma stuck x t : is_double x -> 0 <= t <= x * / 18014398509481984 -> to_double (x + t) = x.
Proof.
  intros D [H1 H2]. destruct (Req_dec x 0) as [->|NX]; [replace t with 0 by lra; rewrite Rplus_0_r; apply rnd_0|].
  assert (PX : 0 < x) by lra.
  apply Rle_antisym; [|apply rnd_lo; [exact D|lra]]. unfold to_double.
  assert (P53 : Prec_gt_0 53) by reflexivity.
  apply round_N_le_midp; [apply FLT_exp_valid; exact P53|now apply double_format|].
  rewrite succ_eq_pos by lra. pose proof (ulp_FLT_gt radix2 (-1074) 53 x) as G. rewrite Rabs_pos_eq in G by lra.
  change (bpow radix2 (- (53))) with (/ 9007199254740992) in G. lra.
Qed.

(** sums of non-negative thicknesses *)
Lemma u_small : 0 < u < 1. Proof. unfold u. lra. Qed.
Lemma near_both x y S t m : is_double x -> is_double t -> 0 <= t -> 0 <= S ->
  S * (1 - u) ^ m <= x <= S * (1 + u) ^ m -> y = to_double (x + t) ->
  (S + t) * (1 - u) ^ (m + 1) <= y <= (S + t) * (1 + u) ^ (m + 1).
Proof.
  intros Dx Dt Ht HS [H1 H2] ->. pose proof u_small as U.
  assert (P1 : 0 < (1 - u) ^ m) by (apply pow_lt; lra). assert (P2 : (1 - u) ^ m <= 1) by (apply Rle_trans with (1 ^ m); [apply pow_incr; lra|rewrite pow1; lra]).
  assert (P3 : 1 <= (1 + u) ^ m) by (apply pow_R1_Rle; lra).
  assert (Q1 : 0 <= S * (1 - u) ^ m) by (apply Rmult_le_pos; lra).
  pose proof (sum_rel x t Dx Dt) as E. rewrite (Rabs_pos_eq (x + t)) in E by lra. apply Rabs_le_inv in E.
  assert (T1 : t * (1 - u) ^ m <= t) by (rewrite <- (Rmult_1_r t) at 2; apply Rmult_le_compat_l; lra).
  assert (T2 : t <= t * (1 + u) ^ m) by (rewrite <- (Rmult_1_r t) at 1; apply Rmult_le_compat_l; lra).
  rewrite !pow_add, !pow_1. split.
  - apply Rle_trans with ((x + t) * (1 - u)); [|lra]. rewrite <- Rmult_assoc. apply Rmult_le_compat_r; [lra|].
    rewrite Rmult_plus_distr_r. lra.
  - apply Rle_trans with ((x + t) * (1 + u)); [lra|]. rewrite <- Rmult_assoc. apply Rmult_le_compat_r; [lra|].
    rewrite Rmult_plus_distr_r. lra.
Qed.
Lemma dappended_sum : forall h pos S m, Forall double_args h -> Forall added h -> Forall (fun k => 0 <= thick k) h ->
  is_double pos -> 0 <= S -> S * (1 - u) ^ m <= pos <= S * (1 + u) ^ m ->
  forall i L, nth_error (dappended pos h) i = Some L ->
  (S + total (firstn i (layers_of h))) * (1 - u) ^ (m + i) <= L_Distance L <= (S + total (firstn i (layers_of h))) * (1 + u) ^ (m + i).
Proof.
  induction h as [|k h IH]; intros pos S m FD FA FT D HS HB i L E; [destruct i; discriminate|].
  apply Forall_cons_iff in FD, FA, FT. destruct FD as [D1 D2], FA as [A1 A2], FT as [T1 T2].
  destruct k as [t c0 c1 a|d t c0 c1 a|]; [|destruct A1|exact (IH pos S m D2 A2 T2 D HS HB i L E)].
  cbn [dappended] in E. destruct i as [|i]; cbn in E.
  - injection E as <-. cbn. rewrite Nat.add_0_r, Rplus_0_r. exact HB.
  - cbn [double_args thick] in D1, T1.
    assert (B := near_both pos (fadd pos t) S t m D D1 T1 HS HB eq_refl).
    assert (G := IH (fadd pos t) (S + t) (m + 1)%nat D2 A2 T2 (rnd_double _) ltac:(lra) B i L E).
    cbn [layers_of filter is_layer firstn total thick]. change (filter is_layer h) with (layers_of h).
    replace (m + Datatypes.S i)%nat with (m + 1 + i)%nat by lia. rewrite <- Rplus_assoc. exact G.
Qed.

(** no rounding, no difference *)
Lemma dnext_same v : is_double (next_pos v) -> dnext v = next_pos v.
Proof. unfold dnext, next_pos. destruct (back_ v) as [b|]; [|reflexivity]. intros D. apply rnd_id. exact D. Qed.
Lemma do_same c k : is_double (next_pos (c_layout c)) -> dcalo_do c k = calo_do c k.
Proof.
  intros D. destruct k as [t c0 c1 a|d t c0 c1 a|]; [|reflexivity|].
  - cbn. unfold set_layout, daddLayer, addLayer, getLayerLayout. pose proof (dnext_same _ D) as E. unfold dnext, next_pos in E. rewrite E. reflexivity.
  - cbn. unfold dgetExtent, getExtent, getNLayers, getDistance, getThickness, at_.
    destruct (Z.ltb_spec 0 (Z.of_nat (List.length (c_layout c)))) as [H|H]; [|reflexivity].
    replace (Z.of_nat (List.length (c_layout c)) - 1)%Z with (Z.of_nat (List.length (c_layout c) - 1)) by lia. rewrite nthZ_of_nat.
    unfold next_pos, back_ in D. destruct (nth_error (c_layout c) (List.length (c_layout c) - 1)) as [b|] eqn:E; [|reflexivity].
    cbn [rmap rbind]. unfold fadd. rewrite (rnd_id _ D). reflexivity.
Qed.
Lemma run_same : forall h c, (forall n, (n < List.length h)%nat -> is_double (next_pos (c_layout (calo_run c (firstn n h))))) -> dcalo_run c h = calo_run c h.
Proof.
  induction h as [|k h IH]; intros c H; [reflexivity|].
  change (dcalo_run c (k :: h)) with (dcalo_run (dcalo_do c k) h). change (calo_run c (k :: h)) with (calo_run (calo_do c k) h).
  rewrite do_same by (apply (H O); cbn; lia). apply IH. intros n Hn. apply (H (S n)). cbn. lia.
Qed.
Lemma next_run : forall h c, next_pos (c_layout (calo_run c h)) = ends (next_pos (c_layout c)) h.
Proof.
  induction h as [|k h IH]; intros c; [reflexivity|].
  change (calo_run c (k :: h)) with (calo_run (calo_do c k) h). rewrite IH, next_do. destruct k; reflexivity.
Qed.
Lemma run_same_fresh c h : fresh c -> (forall n, is_double (ends 0 (firstn n h))) -> dcalo_run c h = calo_run c h.
Proof.
  intros F H. apply run_same. intros n _. rewrite next_run, (fresh_layout c F). apply H.
Qed.
Lemma ends_units e : forall h (p : Z), Forall (fun k => match k with
     | CAdd t _ _ _ => exists k, t = IZR k * powerRZ 2 e
     | CPos d t _ _ _ => (exists k, d = IZR k * powerRZ 2 e) /\ (exists k, t = IZR k * powerRZ 2 e) | CExt => True end) h ->
  exists k : Z, ends (IZR p * powerRZ 2 e) h = IZR k * powerRZ 2 e.
Proof.
  induction h as [|k h IH]; intros p F; [exists p; reflexivity|]. apply Forall_cons_iff in F. destruct F as [F1 F2].
  destruct k as [t c0 c1 a|d t c0 c1 a|]; cbn [ends].
  - destruct F1 as [q ->]. rewrite <- Rmult_plus_distr_r, <- plus_IZR. apply IH; exact F2.
  - destruct F1 as [[q ->] [r ->]]. rewrite <- Rmult_plus_distr_r, <- plus_IZR. apply IH; exact F2.
  - apply IH; exact F2.
Qed.
