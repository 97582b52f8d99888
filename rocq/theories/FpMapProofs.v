From Coq Require Import ZArith List Bool Reals Lra Lia Psatz.
From Flocq Require Import Core.
From Verif Require Import Base RBase VecModel NumModel NumSpec MatModel MatSpec MatProofs FpModel FpProofs FpMapModel FpMapSpec.
Import ListNotations.
Open Scope R_scope.

(** ** one coordinate *)
Definition u53 : R := / 9007199254740992.
Lemma u53_pos : 0 < u53. Proof. unfold u53. lra. Qed.
Lemma near_rnd v M : Rabs v + 1 <= M -> Rabs (to_double v - v) <= M * u53.
Proof. intros H. eapply Rle_trans; [apply rnd_rel|]. apply Rmult_le_compat_r; [pose proof u53_pos; unfold u53 in *; lra|exact H]. Qed.

Section axis.
Variable a : axis.
Hypothesis HA : grid_ok a.
Hypothesis HN : (0 < ax_n a)%Z.
Let n := IZR (ax_n a).
Let M := Rabs (ax_min a) + Rabs (ax_max a) + 1.
Let s := (ax_max a - ax_min a) / n.
Let t := M * u53.

Local Lemma n_ge : 1 <= n <= 1073741824.
Proof. destruct HA as (_ & _ & _ & N & _). split; apply IZR_le; lia. Qed.
Local Lemma M_ge : 1 <= M.
Proof. unfold M. pose proof (Rabs_pos (ax_min a)). pose proof (Rabs_pos (ax_max a)). lra. Qed.
Local Lemma t_pos : 0 < t.
Proof. unfold t. apply Rmult_lt_0_compat; [pose proof M_ge; lra|apply u53_pos]. Qed.
Local Lemma s_is : s * n = ax_max a - ax_min a.
Proof. unfold s. field. pose proof n_ge. lra. Qed.
Local Lemma nt_s : n * t <= s / 128.
Proof.
  destruct HA as (_ & _ & _ & _ & H & _). specialize (H HN). fold n in H. fold M in H. rewrite <- s_is in H.
  assert (n * (n * M) <= n * (s * 70368744177664)) by lra. apply Rmult_le_reg_l in H0; [|pose proof n_ge; lra].
  replace (n * t) with (n * M * u53) by (unfold t; ring). unfold u53. lra.
Qed.
Local Lemma t_s : t <= s / 128.
Proof. pose proof nt_s. pose proof n_ge. pose proof t_pos. nra. Qed.
Local Lemma s_pos : 0 < s.
Proof. pose proof t_s. pose proof t_pos. lra. Qed.
Local Lemma range_M : 0 <= ax_max a - ax_min a <= M - 1.
Proof. destruct HA as (_ & _ & L & _). unfold M. pose proof (Rle_abs (ax_max a)). pose proof (Rle_abs (- ax_min a)). rewrite Rabs_Ropp in *. lra. Qed.
Local Lemma t_M : 1000 * t <= M.
Proof. unfold t. pose proof M_ge. unfold u53. nra. Qed.
Local Lemma s_M : s <= M.
Proof. pose proof range_M. rewrite <- s_is in H. pose proof n_ge. pose proof s_pos. nra. Qed.
Local Lemma step_near : Rabs (fstep a - s) <= 4 * t.
Proof.
  unfold fstep. destruct (Z.eqb_spec (ax_n a) 0); [lia|]. fold n. pose proof range_M. pose proof n_ge. pose proof t_M. pose proof t_pos. pose proof M_ge.
  set (D := fsub (ax_max a) (ax_min a)).
  assert (D1 : Rabs (D - (ax_max a - ax_min a)) <= t) by (apply near_rnd; rewrite Rabs_pos_eq; lra).
  assert (D1' := Rabs_le_inv _ _ D1).
  assert (I : 0 < / n <= 1). { split; [apply Rinv_0_lt_compat; lra|]. rewrite <- Rinv_1. apply Rinv_le; lra. }
  assert (D2 : Rabs (D / n - s) <= t).
  { unfold s. replace (D / n - (ax_max a - ax_min a) / n) with ((D - (ax_max a - ax_min a)) * / n) by (field; lra).
    rewrite Rabs_mult, (Rabs_pos_eq (/ n)) by lra. pose proof (Rabs_pos (D - (ax_max a - ax_min a))). nra. }
  assert (D3 : Rabs (fdiv D n - D / n) <= 3 * t).
  { replace (3 * t) with (3 * M * u53) by (unfold t; ring). apply near_rnd.
    unfold Rdiv. rewrite Rabs_mult, (Rabs_pos_eq (/ n)) by lra.
    assert (Rabs D <= 2 * M) by (apply Rabs_le; lra). pose proof (Rabs_pos D). nra. }
  replace (fdiv D n - s) with ((fdiv D n - D / n) + (D / n - s)) by ring. eapply Rle_trans; [apply Rabs_triang|lra].
Qed.
Definition ideal (k : nat) : R := ax_min a + INR k * s.
Definition off (k : nat) : R := 8 * INR k * t.
Local Lemma add_near x k : ax_min a <= x <= ax_max a -> Rabs (x - ideal k) <= off k -> Rabs (fadd x (fstep a) - ideal (S k)) <= off (S k).
Proof.
  intros X H. pose proof (Rabs_le_inv _ _ step_near) as ST. pose proof t_M. pose proof t_pos. pose proof s_M. pose proof s_pos. pose proof M_ge.
  assert (A : Rabs (fadd x (fstep a) - (x + fstep a)) <= 4 * t).
  { replace (4 * t) with (4 * M * u53) by (unfold t; ring). apply near_rnd.
    pose proof (Rle_abs (ax_max a)). pose proof (Rle_abs (- ax_min a)). rewrite Rabs_Ropp in *. pose proof (Rabs_pos (ax_min a)). pose proof (Rabs_pos (ax_max a)).
    assert (Rabs (x + fstep a) <= M - 1 + (M + 4 * t)) by (apply Rabs_le; unfold M in *; lra). lra. }
  unfold ideal, off in *. rewrite S_INR. apply Rabs_le_inv in A. apply Rabs_le_inv in H. apply Rabs_le. lra.
Qed.
Lemma INR_n : INR (Z.to_nat (ax_n a)) = n.
Proof. rewrite INR_IZR_INZ, Z2Nat.id by lia. reflexivity. Qed.
Local Lemma off_s k : (k <= Z.to_nat (ax_n a))%nat -> off k <= s / 16.
Proof. intros H. unfold off. apply le_INR in H. rewrite INR_n in H. pose proof nt_s. pose proof t_pos. nra. Qed.
Local Lemma ideal_top k : (k <= Z.to_nat (ax_n a))%nat -> ideal k = ax_max a - INR (Z.to_nat (ax_n a) - k) * s.
Proof. intros H. unfold ideal. rewrite minus_INR by exact H. rewrite INR_n. pose proof s_is. lra. Qed.
Local Lemma in_range k x : (k <= Z.to_nat (ax_n a))%nat -> (k = O -> x = ax_min a) -> Rabs (x - ideal k) <= off k -> ax_min a <= x.
Proof.
  intros H Z0 D. destruct k; [rewrite Z0 by reflexivity; lra|]. pose proof (off_s _ H). apply Rabs_le_inv in D. unfold ideal in D. pose proof s_pos.
  rewrite S_INR in D. pose proof (pos_INR k). assert (0 <= INR k * s) by nra. lra.
Qed.

(** the values of the loop variable *)
Fixpoint visited (fuel : nat) (x hi step : R) : option (list R) :=
  match fuel with
  | O => None
  | S f => if Rleb x hi then option_map (cons x) (visited f (fadd x step) hi step) else Some []
  end.
Local Lemma visits : forall d k x fuel, (d + k = S (Z.to_nat (ax_n a)))%nat -> (d < fuel)%nat -> is_double x -> (k = O -> x = ax_min a) -> Rabs (x - ideal k) <= off k ->
  exists xs, visited fuel x (ax_max a) (fstep a) = Some xs /\ (length xs = d \/ S (length xs) = d) /\
  forall i y, nth_error xs i = Some y -> is_double y /\ ax_min a <= y <= ax_max a /\ Rabs (y - ideal (k + i)) <= off (k + i).
Proof.
  induction d as [|d IH]; intros k x [|fuel] K F D Z0 H; try lia; cbn [visited].
  - (* past the end *)
    exists []. assert (ax_max a < x).
    { apply Rabs_le_inv in H. assert (k = S (Z.to_nat (ax_n a))) by lia. subst k. unfold ideal, off in H. rewrite S_INR, INR_n in H.
      pose proof nt_s. pose proof t_s. pose proof s_is. pose proof s_pos. lra. }
    destruct (Rleb_spec x (ax_max a)); [lra|]. split; [reflexivity|]. split; [left; reflexivity|]. intros [|i]; discriminate.
  - pose proof (in_range k x ltac:(lia) Z0 H) as R.
    destruct (Rleb_spec x (ax_max a)) as [L|L].
    + destruct (IH (S k) (fadd x (fstep a)) fuel ltac:(lia) ltac:(lia) (rnd_double _) ltac:(discriminate) (add_near x k (conj R L) H)) as (xs & E & Len & P).
      rewrite E. exists (x :: xs). split; [reflexivity|]. cbn [length]. split; [lia|]. intros [|i] y N; cbn in N.
      * injection N as <-. rewrite Nat.add_0_r. auto.
      * apply P in N. rewrite Nat.add_succ_r. exact N.
    + exists []. split; [reflexivity|]. split; [|intros [|i]; discriminate]. right. cbn.
      destruct d; [reflexivity|exfalso]. apply Rabs_le_inv in H. pose proof (off_s k ltac:(lia)). rewrite ideal_top in H by lia.
      replace (Z.to_nat (ax_n a) - k)%nat with (S d) in H by lia. rewrite S_INR in H. pose proof (pos_INR d). pose proof s_pos. nra.
Qed.
Lemma index_near k x : (k <= Z.to_nat (ax_n a))%nat -> ax_min a <= x <= ax_max a -> Rabs (x - ideal k) <= off k -> fgrid_index1 a x = Ok (Z.of_nat k).
Proof.
  intros K X H. unfold fgrid_index1. pose proof (Rabs_le_inv _ _ step_near) as ST. pose proof t_s. pose proof nt_s. pose proof s_pos. pose proof t_pos. pose proof n_ge. pose proof range_M.
  assert (Sp : 0 < fstep a) by lra. destruct (Reqb_spec (fstep a) 0); [lra|].
  set (e := fsub x (ax_min a)). assert (E : Rabs (e - (x - ax_min a)) <= t) by (apply near_rnd; rewrite Rabs_pos_eq; lra).
  apply Rabs_le_inv in E. apply Rabs_le_inv in H. unfold ideal, off in H.
  pose proof (le_INR _ _ K) as Kn. rewrite INR_n in Kn. pose proof (pos_INR k) as K0.
  assert (KT : INR k * t <= n * t) by nra.
  assert (KS : - (4 * (INR k * t)) <= INR k * (fstep a - s) <= 4 * (INR k * t)) by (split; nra).
  assert (Q : - (fstep a / 8) <= e - INR k * fstep a <= fstep a / 8).
  { replace (e - INR k * fstep a) with ((e - (x - ax_min a)) + (x - (ax_min a + INR k * s)) - INR k * (fstep a - s)) by ring. split; lra. }
  set (q := e / fstep a). assert (QE : q * fstep a = e) by (unfold q; field; lra).
  assert (Q1 : INR k - 1 / 8 <= q <= INR k + 1 / 8) by (split; nra).
  assert (Q2 : Rabs (fdiv e (fstep a) - q) <= (n + 3) * u53) by (apply near_rnd; assert (Rabs q <= n + 1) by (apply Rabs_le; lra); lra).
  apply Rabs_le_inv in Q2. assert (nu : (n + 3) * u53 <= 1 / 1000) by (unfold u53; lra).
  assert (Q3 : Rabs (fadd (fdiv e (fstep a)) (1 / 2) - (fdiv e (fstep a) + 1 / 2)) <= (n + 3) * u53).
  { apply near_rnd. assert (Rabs (fdiv e (fstep a) + 1 / 2) <= n + 2) by (apply Rabs_le; lra). lra. }
  apply Rabs_le_inv in Q3. set (r := fadd (fdiv e (fstep a)) (1 / 2)) in *.
  assert (T : Ztrunc r = Z.of_nat k).
  { rewrite Ztrunc_floor by lra. apply Zfloor_imp. rewrite plus_IZR, <- INR_IZR_INZ. lra. }
  unfold to_int. rewrite T. destruct HA as (_ & _ & _ & N & _). unfold int_okb.
  destruct (Z.leb_spec (-2147483648) (Z.of_nat k)); [|lia]. destruct (Z.leb_spec (Z.of_nat k) 2147483647); [reflexivity|lia].
Qed.
End axis.

Lemma visited_more : forall f f' x hi step xs, (f <= f')%nat -> visited f x hi step = Some xs -> visited f' x hi step = Some xs.
Proof.
  induction f as [|f IH]; intros f' x hi step xs F E; [discriminate|]. destruct f' as [|f']; [lia|]. cbn [visited] in *.
  destruct (Rleb x hi); [|exact E]. destruct (visited f (fadd x step) hi step) as [l|] eqn:V; [|discriminate]. rewrite (IH f' _ _ _ l ltac:(lia) V). exact E.
Qed.
Lemma double_half : is_double (1 / 2).
Proof. apply (is_double_IZR 1 (-1)); [unfold powerRZ; change (Pos.to_nat 1) with 1%nat; rewrite pow_1; lra|reflexivity|lia]. Qed.
Lemma small_pos : 0 <= fsmall.
Proof. unfold fsmall. rewrite <- rnd_0. apply rnd_le. lra. Qed.
Lemma inside_ok : forall a x, is_double x -> ax_min a <= x <= ax_max a -> foutside1 a x = false.
Proof.
  intros a x D H. unfold foutside1. rewrite orb_false_iff, !Rltb_false. pose proof small_pos. split.
  - unfold fadd. assert (x <= to_double (x + fsmall)) by (rewrite <- (rnd_id x D) at 1; apply rnd_le; lra). lra.
  - unfold fsub. pose proof (rnd_below x fsmall D small_pos). lra.
Qed.
Lemma axis_planes : forall a, grid_ok a -> exists xs, planes a xs /\
  (forall fuel, (Z.to_nat (ax_n a) + 2 <= fuel)%nat -> visited fuel (ax_min a) (ax_max a) (fstep a) = Some xs) /\
  forall i x, nth_error xs i = Some x -> fgrid_index1 a x = Ok (Z.of_nat i) /\ foutside1 a x = false.
Proof.
  intros a HA. pose proof HA as (D1 & D2 & L & N & A & B). destruct (Z.eq_dec (ax_n a) 0) as [E|E].
  - destruct (B E) as [B1 B2]. exists [ax_min a]. split; [|split].
    + split; [right; rewrite E; reflexivity|]. split; [discriminate|]. intros [|[|i]] x Hx; try discriminate. injection Hx as <-. split; [exact D1|]. split; [lra|].
      unfold node. rewrite E. cbn [Z.eqb Z.of_nat]. replace (ax_min a - _) with 0 by (unfold IZR; ring). rewrite Rabs_R0. lra.
    + intros [|[|f]] F; [lia|lia|]. cbn [visited]. destruct (Rleb_spec (ax_min a) (ax_max a)); [|lra].
      unfold fstep. rewrite E. cbn [Z.eqb].
      assert (G : ax_max a < fadd (ax_min a) 1).
      { assert (Rabs (fadd (ax_min a) 1 - (ax_min a + 1)) <= 1125899906842626 * u53).
        { apply near_rnd. apply Rabs_le_inv in B2. assert (Rabs (ax_min a + 1) <= 1125899906842625) by (apply Rabs_le; lra). lra. }
        apply Rabs_le_inv in H0. unfold u53 in H0. lra. }
      destruct (Rleb_spec (fadd (ax_min a) 1) (ax_max a)); [lra|reflexivity].
    + intros [|[|i]] x Hx; try discriminate. injection Hx as <-. split; [|apply inside_ok; [exact D1|lra]].
      unfold fgrid_index1, fstep. rewrite E. cbn [Z.eqb]. destruct (Reqb_spec 1 0); [lra|].
      unfold fsub, fdiv, fadd. replace (ax_min a - ax_min a) with 0 by ring. rewrite rnd_0. replace (0 / 1) with 0 by lra. rewrite rnd_0, Rplus_0_l, (rnd_id _ double_half).
      unfold to_int. assert (T : Ztrunc (1 / 2) = 0%Z) by (rewrite Ztrunc_floor by lra; apply Zfloor_imp; cbn; lra). rewrite T. reflexivity.
  - assert (HN : (0 < ax_n a)%Z) by lia. set (n := Z.to_nat (ax_n a)) in *.
    destruct (visits a HA HN (S n) O (ax_min a) (n + 2) ltac:(lia) ltac:(lia) D1 ltac:(reflexivity)) as (xs & V & Len & P).
    { unfold ideal, off. cbn [INR]. replace (ax_min a - _) with 0 by ring. rewrite Rabs_R0. lra. }
    assert (Bnd : forall i x, nth_error xs i = Some x -> (i <= n)%nat).
    { intros i x Hx. assert (i < length xs)%nat by (apply nth_error_Some; congruence). lia. }
    exists xs. split; [|split].
    + split; [lia|]. split; [intros ->; cbn in Len; lia|]. intros i x Hx. pose proof (Bnd i x Hx) as Bi. destruct (P i x Hx) as (Q1 & Q2 & Q3). split; [exact Q1|]. split; [exact Q2|].
      pose proof (off_s a HA HN i Bi). unfold node. destruct (Z.eqb_spec (ax_n a) 0); [lia|]. cbn [Nat.add] in Q3. unfold ideal in Q3. rewrite <- INR_IZR_INZ. set (d := (ax_max a - ax_min a) / IZR (ax_n a)) in *.
      eapply Rle_trans; [exact Q3|]. lra.
    + intros fuel F. apply (visited_more (n + 2)); [lia|exact V].
    + intros i x Hx. pose proof (Bnd i x Hx) as Bi. destruct (P i x Hx) as (Q1 & Q2 & Q3). split; [|apply inside_ok; assumption].
      apply index_near; assumption.
Qed.

(** ** the loops *)
Lemma for_points : forall A (P : nat -> A -> Prop) (bad : Prop) (hi step : R) (body : R -> A -> option (result A)) fuel x xs,
  visited fuel x hi step = Some xs ->
  forall k, (forall i y s, nth_error xs i = Some y -> P (k + i)%nat s ->
     (exists s', body y s = Some (Ok s') /\ P (k + S i)%nat s') \/ (exists e, body y s = Some (Throw e) /\ bad)) ->
  forall s, P k s ->
  (exists s', ffor_loop fuel x hi step body s = Some (Ok s') /\ P (k + length xs)%nat s') \/ (exists e, ffor_loop fuel x hi step body s = Some (Throw e) /\ bad).
Proof.
  intros A P bad hi step body. induction fuel as [|f IH]; intros x xs V k HB s Hs; [discriminate|]. cbn [visited ffor_loop] in *.
  destruct (Rleb x hi).
  - destruct (visited f (fadd x step) hi step) as [l|] eqn:E; [|discriminate]. injection V as <-.
    destruct (HB O x s eq_refl) as [(s' & B & Ps)|(e & B & Ps)]; [rewrite Nat.add_0_r; exact Hs| |]; rewrite B; [|right; eauto].
    rewrite Nat.add_1_r in Ps. destruct (IH _ l E (S k)) with (s := s') as [(s2 & F & Q)|(e & F & Q)]; [|exact Ps| |].
    + intros i y s0 Hi Hp. rewrite Nat.add_succ_l, <- Nat.add_succ_r in *. apply (HB (S i) y s0 Hi). exact Hp.
    + left. exists s2. split; [exact F|]. cbn [length]. rewrite Nat.add_succ_r. exact Q.
    + right. eauto.
  - injection V as <-. left. exists s. cbn. rewrite Nat.add_0_r. auto.
Qed.

Section built.
Variables (nrad nint : vec -> result R) (pos : R -> R -> R -> vec) (x y z : axis) (xs ys zs : list R).
Hypothesis U1 : forall q, nrad q <> UB.
Hypothesis U2 : forall q, nint q <> UB.
Hypothesis NX : forall i v, nth_error xs i = Some v -> fgrid_index1 x v = Ok (Z.of_nat i) /\ foutside1 x v = false.
Hypothesis NY : forall i v, nth_error ys i = Some v -> fgrid_index1 y v = Ok (Z.of_nat i) /\ foutside1 y v = false.
Hypothesis NZ : forall i v, nth_error zs i = Some v -> fgrid_index1 z v = Ok (Z.of_nat i) /\ foutside1 z v = false.
Hypothesis PX : planes x xs. Hypothesis PY : planes y ys. Hypothesis PZ : planes z zs.

Definition ffilled (i j k : nat) (m : mmap) : Prop :=
  mm_x m = x /\ mm_y m = y /\ mm_z m = z /\
  forall i' j' k', in_axis x i' -> in_axis y j' -> in_axis z k' ->
  if (Z.ltb i' (Z.of_nat i) || (Z.eqb i' (Z.of_nat i) && (Z.ltb j' (Z.of_nat j) || (Z.eqb j' (Z.of_nat j) && Z.ltb k' (Z.of_nat k)))))%bool
  then match plane_at xs i', plane_at ys j', plane_at zs k' with
       | Some a, Some b, Some c => material nrad nint (pos a b c) (mm_val m i' j' k')
       | _, _, _ => mm_val m i' j' k' = (0, 0)
       end
  else mm_val m i' j' k' = (0, 0).
Lemma plane_in : forall a l i v, planes a l -> nth_error l i = Some v -> in_axis a (Z.of_nat i).
Proof. intros a l i v ([L|L] & _ & _) H; assert (i < length l)%nat by (apply nth_error_Some; congruence); unfold in_axis; lia. Qed.
Definition fbad : Prop := exists i j k a b c, nth_error xs i = Some a /\ nth_error ys j = Some b /\ nth_error zs k = Some c /\ budget_bad nrad nint (pos a b c).
Lemma ffill_step : forall i j k a b c m, nth_error xs i = Some a -> nth_error ys j = Some b -> nth_error zs k = Some c -> ffilled i j k m ->
  (exists m', Some (ffill_one nrad nint pos a b c m) = Some (Ok m') /\ ffilled i j (S k) m') \/
  (exists e, Some (ffill_one nrad nint pos a b c m) = Some (Throw e) /\ fbad).
Proof.
  intros i j k a b c m Hi Hj Hk (E1 & E2 & E3 & F). unfold ffill_one.
  destruct (budget_cases nrad nint (pos a b c) U1 U2) as [(v & B & Mt)|(e & B & Mt)]; rewrite B; cbn [rbind].
  2:{ right. exists e. split; [reflexivity|]. exists i, j, k, a, b, c. auto. }
  left. unfold fcalculateGridIndex. rewrite E1, E2, E3. destruct (NX i a Hi) as [-> ->]. destruct (NY j b Hj) as [-> ->]. destruct (NZ k c Hk) as [-> ->]. cbn [orb rbind].
  unfold mm_set. rewrite (proj2 (inb_true m (Z.of_nat i) (Z.of_nat j) (Z.of_nat k))).
  2:{ rewrite E1, E2, E3. split; [exact (plane_in _ _ _ _ PX Hi)|split; [exact (plane_in _ _ _ _ PY Hj)|exact (plane_in _ _ _ _ PZ Hk)]]. }
  eexists. split; [reflexivity|]. split; [exact E1|]. split; [exact E2|]. split; [exact E3|]. cbn [mm_val].
  intros i' j' k' Hi' Hj' Hk'. specialize (F i' j' k' Hi' Hj' Hk').
  assert (PA : forall l n v, nth_error l n = Some v -> plane_at l (Z.of_nat n) = Some v) by (intros; unfold plane_at; rewrite Nat2Z.id; assumption).
  destruct (Z.eqb_spec i' (Z.of_nat i)) as [->|Ni]; [destruct (Z.eqb_spec j' (Z.of_nat j)) as [->|Nj]; [destruct (Z.eqb_spec k' (Z.of_nat k)) as [->|Nk]|]|]; cbn [andb].
  - rewrite ?Z.ltb_irrefl. cbn [orb]. destruct (Z.ltb_spec (Z.of_nat k) (Z.of_nat (S k))); [|lia]. rewrite (PA xs i a Hi), (PA ys j b Hj), (PA zs k c Hk). exact Mt.
  - rewrite ?Z.ltb_irrefl, ?Z.eqb_refl in F |- *. cbn [orb andb] in *. destruct (Z.ltb_spec k' (Z.of_nat k)), (Z.ltb_spec k' (Z.of_nat (S k))); try lia; exact F.
  - rewrite ?Z.ltb_irrefl, ?Z.eqb_refl in F |- *. cbn [orb andb] in *. destruct (Z.eqb_spec j' (Z.of_nat j)); [contradiction|]. exact F.
  - destruct (Z.eqb_spec i' (Z.of_nat i)); [contradiction|]. exact F.
Qed.
(** a row, a plane, the whole map done: what is past the end of a list was never written *)
Lemma row_done : forall i j m, ffilled i j (length zs) m -> ffilled i (S j) 0 m.
Proof.
  intros i j m (E1 & E2 & E3 & F). split; [exact E1|]. split; [exact E2|]. split; [exact E3|]. intros i' j' k' Hi Hj Hk. specialize (F i' j' k' Hi Hj Hk).
  destruct (Z.ltb_spec i' (Z.of_nat i)); [exact F|]. cbn [orb] in *. destruct (Z.eqb_spec i' (Z.of_nat i)); [|exact F]. cbn [andb] in *.
  destruct (Z.ltb_spec j' (Z.of_nat j)).
  - destruct (Z.ltb_spec j' (Z.of_nat (S j))); [exact F|lia].
  - cbn [orb] in *. destruct (Z.eqb_spec j' (Z.of_nat j)).
    + destruct (Z.ltb_spec j' (Z.of_nat (S j))); [|lia]. cbn [orb andb] in *. destruct (Z.ltb_spec k' (Z.of_nat (length zs))); [exact F|].
      assert (plane_at zs k' = None) as -> by (unfold plane_at; apply nth_error_None; lia). destruct (plane_at xs i'), (plane_at ys j'); exact F.
    + destruct (Z.ltb_spec j' (Z.of_nat (S j))); [lia|]. cbn [orb andb] in *. destruct (Z.ltb_spec k' (Z.of_nat 0)); [unfold in_axis in *; lia|]. rewrite andb_false_r. exact F.
Qed.
Lemma plane_done : forall i m, ffilled i (length ys) 0 m -> ffilled (S i) 0 0 m.
Proof.
  intros i m (E1 & E2 & E3 & F). split; [exact E1|]. split; [exact E2|]. split; [exact E3|]. intros i' j' k' Hi Hj Hk. specialize (F i' j' k' Hi Hj Hk).
  assert (Z.ltb k' (Z.of_nat 0) = false) as K by (apply Z.ltb_ge; unfold in_axis in *; lia). assert (Z.ltb j' (Z.of_nat 0) = false) as J by (apply Z.ltb_ge; unfold in_axis in *; lia).
  rewrite ?K, ?J in F |- *. cbn [orb] in *. rewrite ?andb_false_r, ?orb_false_r in F |- *. rewrite ?andb_false_r, ?orb_false_r in F |- *.
  destruct (Z.ltb_spec i' (Z.of_nat i)).
  - destruct (Z.ltb_spec i' (Z.of_nat (S i))); [exact F|lia].
  - cbn [orb] in *. destruct (Z.eqb_spec i' (Z.of_nat i)).
    + destruct (Z.ltb_spec i' (Z.of_nat (S i))); [|lia]. cbn [andb] in *. destruct (Z.ltb_spec j' (Z.of_nat (length ys))); [exact F|].
      assert (plane_at ys j' = None) as -> by (unfold plane_at; apply nth_error_None; lia). destruct (plane_at xs i'); exact F.
    + destruct (Z.ltb_spec i' (Z.of_nat (S i))); [lia|]. rewrite ?J, ?andb_false_r. exact F.
Qed.
Lemma all_done : forall m, ffilled (length xs) 0 0 m -> holds_planes nrad nint pos xs ys zs m.
Proof.
  intros m (E1 & E2 & E3 & F) i j k Hi Hj Hk. rewrite E1, E2, E3 in *. specialize (F i j k Hi Hj Hk).
  assert (Z.ltb k (Z.of_nat 0) = false) as K by (apply Z.ltb_ge; unfold in_axis in *; lia). assert (Z.ltb j (Z.of_nat 0) = false) as J by (apply Z.ltb_ge; unfold in_axis in *; lia).
  rewrite ?K, ?J in F. cbn [orb] in F. rewrite ?andb_false_r, ?orb_false_r in F. rewrite ?andb_false_r, ?orb_false_r in F.
  destruct (Z.ltb_spec i (Z.of_nat (length xs))); [exact F|].
  assert (plane_at xs i = None) as -> by (unfold plane_at; apply nth_error_None; lia). exact F.
Qed.
Lemma loops_done : forall fuel,
  visited fuel (ax_min x) (ax_max x) (fstep x) = Some xs -> visited fuel (ax_min y) (ax_max y) (fstep y) = Some ys -> visited fuel (ax_min z) (ax_max z) (fstep z) = Some zs ->
  let r := fover fuel x (fun vx => fover fuel y (fun vy => fover fuel z (fun vz m => Some (ffill_one nrad nint pos vx vy vz m)))) (mkMM x y z (fun _ _ _ => (0, 0))) in
  (exists m, r = Some (Ok m) /\ mm_x m = x /\ mm_y m = y /\ mm_z m = z /\ holds_planes nrad nint pos xs ys zs m) \/ (exists e, r = Some (Throw e) /\ fbad).
Proof.
  intros fuel VX VY VZ r. unfold r, fover at 1.
  destruct (for_points mmap (fun i m => ffilled i 0 0 m) fbad (ax_max x) (fstep x)
    (fun vx => fover fuel y (fun vy => fover fuel z (fun vz m => Some (ffill_one nrad nint pos vx vy vz m)))) fuel (ax_min x) xs VX O) with (s := mkMM x y z (fun _ _ _ => (0, 0))) as [(m & E & F)|(e & E & B)].
  - intros i a s Hi Fi. unfold fover at 1. cbn [Nat.add] in *.
    destruct (for_points mmap (fun j m => ffilled i j 0 m) fbad (ax_max y) (fstep y)
      (fun vy => fover fuel z (fun vz m => Some (ffill_one nrad nint pos a vy vz m))) fuel (ax_min y) ys VY O) with (s := s) as [(m & E & F)|(e & E & B)].
    + intros j b s1 Hj Fj. unfold fover. cbn [Nat.add] in *.
      destruct (for_points mmap (fun k m => ffilled i j k m) fbad (ax_max z) (fstep z)
        (fun vz m => Some (ffill_one nrad nint pos a b vz m)) fuel (ax_min z) zs VZ O) with (s := s1) as [(m & E & F)|(e & E & B)].
      * intros k c s2 Hk Fk. cbn [Nat.add] in *. apply ffill_step; assumption.
      * exact Fj.
      * left. exists m. split; [exact E|]. apply row_done. exact F.
      * right. eauto.
    + exact Fi.
    + left. exists m. split; [exact E|]. apply plane_done. exact F.
    + right. eauto.
  - split; [reflexivity|]. split; [reflexivity|]. split; [reflexivity|]. intros i' j' k' Hi Hj Hk. cbn [mm_val].
    destruct (Z.ltb_spec i' (Z.of_nat 0)), (Z.ltb_spec j' (Z.of_nat 0)), (Z.ltb_spec k' (Z.of_nat 0)); unfold in_axis in *; try lia. cbn [orb]. rewrite !andb_false_r. reflexivity.
  - left. exists m. cbn [Nat.add] in F. pose proof F as (F1 & F2 & F3 & _). split; [exact E|]. repeat split; try assumption. apply all_done. exact F.
  - right. eauto.
Qed.
End built.

Lemma fbad_args_ok : forall x y z coord, grid_ok x -> grid_ok y -> grid_ok z -> fdomain_ok x y z coord -> fbad_args x y z coord = false.
Proof.
  intros x y z coord (_ & _ & X1 & X2 & _) (_ & _ & Y1 & Y2 & _) (_ & _ & Z1 & Z2 & _) D. unfold fbad_args.
  rewrite !orb_false_iff, !Rltb_false, !Z.ltb_ge. repeat split; try lra; try lia.
  destruct D as [->|[(-> & A & B & C)|(-> & A & B & C & D & E)]]; unfold CARTESIAN, CYLINDRICAL, SPHERICAL; cbn [Z.eqb Pos.eqb];
  [reflexivity|rewrite !orb_false_iff, !Rltb_false; lra|rewrite !orb_false_iff, !Rltb_false; lra].
Qed.
Lemma fmap_built : forall nrad nint pos x y z coord, (forall q, nrad q <> UB) -> (forall q, nint q <> UB) ->
  grid_ok x -> grid_ok y -> grid_ok z -> fdomain_ok x y z coord ->
  exists xs ys zs enough, planes x xs /\ planes y ys /\ planes z zs /\ forall fuel, (enough <= fuel)%nat ->
  (exists m, fnew_map fuel nrad nint pos x y z coord = Some (Ok m) /\ mm_x m = x /\ mm_y m = y /\ mm_z m = z /\ holds_planes nrad nint (pos coord) xs ys zs m) \/
  (exists e a b c, fnew_map fuel nrad nint pos x y z coord = Some (Throw e) /\ In a xs /\ In b ys /\ In c zs /\
     let p := pos coord a b c in p <> vzero /\ ((exists e, nrad p = Throw e) \/ (exists e, nint p = Throw e))).
Proof.
  intros nrad nint pos x y z coord U1 U2 HX HY HZ D.
  destruct (axis_planes x HX) as (xs & PX & VX & NX). destruct (axis_planes y HY) as (ys & PY & VY & NY). destruct (axis_planes z HZ) as (zs & PZ & VZ & NZ).
  exists xs, ys, zs, (Z.to_nat (ax_n x) + Z.to_nat (ax_n y) + Z.to_nat (ax_n z) + 2)%nat. split; [exact PX|]. split; [exact PY|]. split; [exact PZ|].
  intros fuel F. unfold fnew_map. rewrite fbad_args_ok by assumption.
  destruct (loops_done nrad nint (pos coord) x y z xs ys zs U1 U2 NX NY NZ PX PY PZ fuel (VX fuel ltac:(lia)) (VY fuel ltac:(lia)) (VZ fuel ltac:(lia))) as [H|(e & E & i & j & k & a & b & c & Ha & Hb & Hc & B)]; [left; exact H|right].
  exists e, a, b, c. split; [exact E|]. split; [eapply nth_error_In; eassumption|]. split; [eapply nth_error_In; eassumption|]. split; [eapply nth_error_In; eassumption|]. exact B.
Qed.

(** ** grids without rounding errors *)
Definition nodes (a : axis) : list R := map (fun k => node a (Z.of_nat k)) (seq 0 (S (Z.to_nat (ax_n a)))).
Lemma nodes_at : forall a i x, nth_error (nodes a) i = Some x -> (i <= Z.to_nat (ax_n a))%nat /\ x = node a (Z.of_nat i).
Proof.
  intros a i x H. unfold nodes in H. assert (L : (i < length (seq 0 (S (Z.to_nat (ax_n a)))))%nat) by (rewrite <- (map_length (fun k => node a (Z.of_nat k))); apply nth_error_Some; congruence).
  rewrite seq_length in L. split; [lia|].
  rewrite (map_nth_error _ i (seq 0 (S (Z.to_nat (ax_n a)))) (d := i)) in H; [congruence|].
  rewrite (nth_error_nth' _ 0%nat) by (rewrite seq_length; lia). rewrite seq_nth by lia. reflexivity.
Qed.
Lemma axis_exact : forall a, exact_grid a -> planes a (nodes a) /\
  (forall fuel, (Z.to_nat (ax_n a) + 2 <= fuel)%nat -> visited fuel (ax_min a) (ax_max a) (fstep a) = Some (nodes a)) /\
  forall i x, nth_error (nodes a) i = Some x -> fgrid_index1 a x = Ok (Z.of_nat i) /\ foutside1 a x = false.
Proof.
  intros a (A & q & e & E1 & E2 & Q & N & B1 & B2 & He). set (p := powerRZ 2 e) in *. assert (P : 0 < p) by (apply powerRZ_lt; lra).
  assert (n0 : 0 < IZR (ax_n a)) by (apply IZR_lt; lia). assert (q0 : 0 < IZR q) by (apply IZR_lt; lia).
  assert (Nd : forall k, node a k = IZR (A + k * q) * p).
  { intros k. unfold node. destruct (Z.eqb_spec (ax_n a) 0); [lia|]. rewrite E1, E2, !plus_IZR, !mult_IZR. field. lra. }
  assert (Dd : forall k, (0 <= k <= ax_n a + 1)%Z -> is_double (node a k)). { intros k Hk. rewrite Nd. exists (A + k * q)%Z, e. split; [reflexivity|]. split; [nia|lia]. }
  assert (Rng : forall k, (0 <= k <= ax_n a)%Z -> ax_min a <= node a k <= ax_max a).
  { intros k Hk. rewrite Nd, E1, E2. split; apply Rmult_le_compat_r; try lra; apply IZR_le; nia. }
  assert (Df : forall k, (0 <= k <= ax_n a)%Z -> fsub (node a k) (ax_min a) = IZR (k * q) * p).
  { intros k Hk. unfold fsub. replace (node a k - ax_min a) with (IZR (k * q) * p) by (rewrite Nd, E1, plus_IZR; ring). apply rnd_id. exists (k * q)%Z, e. split; [reflexivity|]. split; [nia|lia]. }
  assert (Di : forall k, (Z.abs k <= 2147483648)%Z -> is_double (IZR k)). { intros k Hk. exists k, 0%Z. cbn [powerRZ]. split; [ring|]. split; lia. }
  assert (St : fstep a = IZR q * p).
  { unfold fstep. destruct (Z.eqb_spec (ax_n a) 0); [lia|]. replace (ax_max a) with (node a (ax_n a)) by (rewrite Nd, E2; reflexivity). rewrite Df by lia. unfold fdiv.
    replace (IZR (ax_n a * q) * p / IZR (ax_n a)) with (IZR q * p) by (rewrite mult_IZR; field; lra). apply rnd_id. exists q, e. split; [reflexivity|]. split; [nia|lia]. }
  assert (Nx : forall k, (0 <= k <= ax_n a)%Z -> fadd (node a k) (fstep a) = node a (k + 1)).
  { intros k Hk. rewrite St. unfold fadd. replace (node a k + IZR q * p) with (node a (k + 1)) by (rewrite !Nd, !plus_IZR, !mult_IZR, plus_IZR; ring). apply rnd_id, Dd. lia. }
  assert (Ix : forall k, (0 <= k <= ax_n a)%Z -> fgrid_index1 a (node a k) = Ok k).
  { intros k Hk. unfold fgrid_index1. rewrite Df by lia. rewrite St. destruct (Reqb_spec (IZR q * p) 0) as [Z0|]; [exfalso; assert (0 < IZR q * p) by (apply Rmult_lt_0_compat; lra); lra|].
    unfold fdiv. replace (IZR (k * q) * p / (IZR q * p)) with (IZR k) by (rewrite mult_IZR; field; lra). rewrite (rnd_id (IZR k)) by (apply Di; lia).
    unfold fadd. rewrite (rnd_id (IZR k + 1 / 2)).
    2:{ exists (2 * k + 1)%Z, (-1)%Z. split; [|split; lia]. rewrite plus_IZR, mult_IZR. unfold powerRZ. change (Pos.to_nat 1) with 1%nat. rewrite pow_1. field. }
    unfold to_int. assert (0 <= IZR k) by (apply IZR_le; lia).
    assert (T : Ztrunc (IZR k + 1 / 2) = k) by (rewrite Ztrunc_floor by lra; apply Zfloor_imp; rewrite plus_IZR; lra).
    rewrite T. unfold int_okb. destruct (Z.leb_spec (-2147483648) k); [|lia]. destruct (Z.leb_spec k 2147483647); [reflexivity|lia]. }
  split; [|split].
  - split; [right; unfold nodes; rewrite map_length, seq_length; lia|]. split; [discriminate|]. intros i x Hx. apply nodes_at in Hx. destruct Hx as [Hi ->].
    split; [apply Dd; lia|]. split; [apply Rng; lia|]. replace (node a (Z.of_nat i) - node a (Z.of_nat i)) with 0 by ring. rewrite Rabs_R0, !Nd, !plus_IZR. assert (0 < IZR q * p) by (apply Rmult_lt_0_compat; lra). rewrite !mult_IZR. lra.
  - intros fuel F. replace (ax_min a) with (node a (Z.of_nat 0)) by (rewrite Nd, E1; f_equal; f_equal; lia). unfold nodes.
    assert (G : forall d k fuel, (d + k = S (Z.to_nat (ax_n a)))%nat -> (d < fuel)%nat -> visited fuel (node a (Z.of_nat k)) (ax_max a) (fstep a) = Some (map (fun k => node a (Z.of_nat k)) (seq k d))).
    { clear fuel F. induction d as [|d IH]; intros k [|fuel] K F; try lia; cbn [visited seq map].
      - destruct (Rleb_spec (node a (Z.of_nat k)) (ax_max a)) as [L|L]; [exfalso|reflexivity]. replace k with (S (Z.to_nat (ax_n a))) in L by lia. rewrite Nd, E2 in L.
        apply Rmult_le_reg_r in L; [|exact P]. apply le_IZR in L. nia.
      - destruct (Rleb_spec (node a (Z.of_nat k)) (ax_max a)) as [L|L]; [|pose proof (Rng (Z.of_nat k) ltac:(lia)); lra].
        rewrite Nx by lia. replace (Z.of_nat k + 1)%Z with (Z.of_nat (S k)) by lia. rewrite (IH (S k) fuel) by lia. reflexivity. }
    apply (G (S (Z.to_nat (ax_n a))) O); lia.
  - intros i x Hx. apply nodes_at in Hx. destruct Hx as [Hi ->]. split; [apply Ix; lia|]. apply inside_ok; [apply Dd; lia|apply Rng; lia].
Qed.
Lemma node_at : forall a k, in_axis a k -> plane_at (nodes a) k = Some (node a k).
Proof.
  intros a k H. unfold plane_at, nodes, in_axis in *. erewrite map_nth_error; [|erewrite (nth_error_nth' _ 0%nat) by (rewrite seq_length; lia); rewrite seq_nth by lia; reflexivity].
  cbn [Nat.add]. rewrite Z2Nat.id by lia. reflexivity.
Qed.
Lemma axis_single : forall a, grid_ok a -> ax_n a = 0%Z -> planes a (nodes a) /\
  (forall fuel, (Z.to_nat (ax_n a) + 2 <= fuel)%nat -> visited fuel (ax_min a) (ax_max a) (fstep a) = Some (nodes a)) /\
  forall i x, nth_error (nodes a) i = Some x -> fgrid_index1 a x = Ok (Z.of_nat i) /\ foutside1 a x = false.
Proof.
  intros a H E. destruct (axis_planes a H) as (xs & P & V & I).
  assert (X : xs = nodes a).
  { unfold nodes. rewrite E. cbn [Z.to_nat seq map]. destruct P as (_ & N & _).
    specialize (V 2%nat ltac:(rewrite E; cbn; lia)). cbn [visited] in V. destruct (Rleb (ax_min a) (ax_max a)); [|injection V as <-; contradiction].
    destruct (Rleb (fadd (ax_min a) (fstep a)) (ax_max a)); [discriminate|]. injection V as <-. f_equal. unfold node. rewrite E. cbn [Z.eqb]. cbn. ring. }
  rewrite <- X. auto.
Qed.
Lemma fmap_exact : forall nrad nint pos x y z coord, (forall q, nrad q <> UB) -> (forall q, nint q <> UB) ->
  (forall a, In a [x; y; z] -> exact_grid a \/ grid_ok a /\ ax_n a = 0%Z) -> fdomain_ok x y z coord ->
  exists enough, forall fuel, (enough <= fuel)%nat ->
  (exists m, fnew_map fuel nrad nint pos x y z coord = Some (Ok m) /\ mm_x m = x /\ mm_y m = y /\ mm_z m = z /\
     forall i j k, in_axis x i -> in_axis y j -> in_axis z k -> material nrad nint (pos coord (node x i) (node y j) (node z k)) (mm_val m i j k)) \/
  (exists e i j k, fnew_map fuel nrad nint pos x y z coord = Some (Throw e) /\ in_axis x i /\ in_axis y j /\ in_axis z k /\
     let p := pos coord (node x i) (node y j) (node z k) in p <> vzero /\ ((exists e, nrad p = Throw e) \/ (exists e, nint p = Throw e))).
Proof.
  intros nrad nint pos x y z coord U1 U2 HA D.
  assert (K : forall a, In a [x; y; z] -> planes a (nodes a) /\
    (forall fuel, (Z.to_nat (ax_n a) + 2 <= fuel)%nat -> visited fuel (ax_min a) (ax_max a) (fstep a) = Some (nodes a)) /\
    forall i x, nth_error (nodes a) i = Some x -> fgrid_index1 a x = Ok (Z.of_nat i) /\ foutside1 a x = false).
  { intros a Ha. destruct (HA a Ha) as [E|[G E]]; [apply axis_exact, E|apply axis_single; assumption]. }
  destruct (K x ltac:(cbn; auto)) as (PX & VX & NX). destruct (K y ltac:(cbn; auto)) as (PY & VY & NY). destruct (K z ltac:(cbn; auto)) as (PZ & VZ & NZ).
  assert (O : forall a, In a [x; y; z] -> ax_min a <= ax_max a /\ (0 <= ax_n a)%Z).
  { intros a Ha. destruct (HA a Ha) as [(A & q & e & -> & -> & Q & N & _)|[(_ & _ & L & N & _) E]]; [|split; [exact L|lia]]. split; [|lia].
    apply Rmult_le_compat_r; [left; apply powerRZ_lt; lra|apply IZR_le; nia]. }
  destruct (O x ltac:(cbn; auto)). destruct (O y ltac:(cbn; auto)). destruct (O z ltac:(cbn; auto)).
  exists (Z.to_nat (ax_n x) + Z.to_nat (ax_n y) + Z.to_nat (ax_n z) + 2)%nat. intros fuel F. unfold fnew_map.
  assert (fbad_args x y z coord = false) as ->.
  { unfold fbad_args. rewrite !orb_false_iff, !Rltb_false, !Z.ltb_ge. repeat split; try lra; try lia.
    destruct D as [->|[(-> & A & B & C)|(-> & A & B & C & D & E)]]; unfold CARTESIAN, CYLINDRICAL, SPHERICAL; cbn [Z.eqb Pos.eqb];
    [reflexivity|rewrite !orb_false_iff, !Rltb_false; lra|rewrite !orb_false_iff, !Rltb_false; lra]. }
  destruct (loops_done nrad nint (pos coord) x y z (nodes x) (nodes y) (nodes z) U1 U2 NX NY NZ PX PY PZ fuel (VX fuel ltac:(lia)) (VY fuel ltac:(lia)) (VZ fuel ltac:(lia))) as [(m & E & M1 & M2 & M3 & H5)|(e & E & i & j & k & a & b & c & Ha & Hb & Hc & B)]; [left|right].
  - exists m. split; [exact E|]. split; [exact M1|]. split; [exact M2|]. split; [exact M3|]. intros i j k Hi Hj Hk. rewrite <- M1 in Hi. rewrite <- M2 in Hj. rewrite <- M3 in Hk.
    specialize (H5 i j k Hi Hj Hk). rewrite M1 in Hi. rewrite M2 in Hj. rewrite M3 in Hk. rewrite !node_at in H5 by assumption. exact H5.
  - apply nodes_at in Ha, Hb, Hc. destruct Ha as [Ha ->], Hb as [Hb ->], Hc as [Hc ->]. exists e, (Z.of_nat i), (Z.of_nat j), (Z.of_nat k). split; [exact E|]. unfold in_axis. repeat split; try lia; apply B.
Qed.
