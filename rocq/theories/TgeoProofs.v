From Coq Require Import ZArith List Bool Reals Lra Lia String.
From Verif Require Import Base RBase VecModel VecProofs TgeoModel TgeoSpec.
Import ListNotations.
Open Scope R_scope.

Lemma veqb_iff : forall a b, veqb a b = true <-> a = b.
Proof.
  intros [a b c] [d e f]. unfold veqb. cbn. rewrite !andb_true_iff, !Reqb_true. split; [intros [[-> ->] ->]; reflexivity|intros E; injection E; auto].
Qed.
Lemma veqb_refl : forall a, veqb a a = true. Proof. intros; now apply veqb_iff. Qed.
Lemma veqb_neq : forall a b, a <> b -> veqb a b = false.
Proof. intros a b H. apply not_true_is_false. intros E. apply H. now apply veqb_iff. Qed.

(** ** the state after beamOn *)
Definition shot (g : geometry) (p0 p1 : vec) : result unit * dprops :=
  let s0 := mkDP p0 p1 [] [] [] [] [] in
  match g p0 p1 with
  | None => (Throw (EGear "OutsideGeometryException"), s0)
  | Some (n, l) => match steps p0 p1 (Some n) l s0 with Ok s' => (Ok tt, s') | Throw e => (Throw e, s0) | UB => (UB, s0) end
  end.
Lemma steps_ends : forall p0 p1 l n s s', steps p0 p1 n l s = Ok s' -> d_p0 s' = d_p0 s /\ d_p1 s' = d_p1 s.
Proof.
  intros p0 p1 l. induction l as [|[v v2] l IH]; intros n s s' H; cbn [steps] in H; [injection H as <-; auto|].
  destruct (nv_node v); [|injection H as <-; auto]. destruct (nv_out v); [injection H as <-; auto|]. destruct n as [n|]; [|discriminate].
  destruct (Rltb (vdistance p1 p0) _); [injection H as <-; auto|]. destruct (nv_out _); [injection H as <-; auto|]. apply IH in H. exact H.
Qed.
Lemma shot_ends : forall g p0 p1, d_p0 (snd (shot g p0 p1)) = p0 /\ d_p1 (snd (shot g p0 p1)) = p1.
Proof.
  intros. unfold shot. destruct (g p0 p1) as [[n l]|]; [|auto]. destruct (steps p0 p1 (Some n) l _) eqn:E; [|auto|auto]. apply steps_ends in E. exact E.
Qed.
Lemma beam_other : forall g p0 p1 s, (p0, p1) <> (d_p0 s, d_p1 s) -> beamOn g p0 p1 s = shot g p0 p1.
Proof.
  intros g p0 p1 s H. unfold beamOn. destruct (veqb p0 (d_p0 s) && veqb p1 (d_p1 s))%bool eqn:E; [|reflexivity].
  apply andb_true_iff in E. rewrite !veqb_iff in E. destruct E as [-> ->]. contradiction.
Qed.
Lemma beam_same : forall g s, beamOn g (d_p0 s) (d_p1 s) s = (Ok tt, s).
Proof. intros. unfold beamOn. rewrite !veqb_refl. reflexivity. Qed.
Lemma beam_cases : forall g p0 p1 s, beamOn g p0 p1 s = shot g p0 p1 \/ (d_p0 s = p0 /\ d_p1 s = p1 /\ beamOn g p0 p1 s = (Ok tt, s)).
Proof.
  intros. unfold beamOn. destruct (veqb p0 (d_p0 s) && veqb p1 (d_p1 s))%bool eqn:E; [|now left].
  apply andb_true_iff in E. rewrite !veqb_iff in E. destruct E as [-> ->]. now right.
Qed.
(** a non-degenerate call leaves its own ends *)
Lemma query_ends : forall g k p0 p1 s, p0 <> p1 -> d_p0 (snd (query g k p0 p1 s)) = p0 /\ d_p1 (snd (query g k p0 p1 s)) = p1.
Proof.
  intros g k p0 p1 s H. unfold query. rewrite (veqb_neq _ _ H). destruct (beam_cases g p0 p1 s) as [E|(E1 & E2 & E)]; rewrite E.
  - pose proof (shot_ends g p0 p1) as (A & B). destruct (shot g p0 p1) as [[u|e|] s']; cbn in *; auto.
  - cbn. auto.
Qed.
Lemma query_deg_ends : forall g k p s, d_p0 (snd (query g k p p s)) = d_p0 s /\ d_p1 (snd (query g k p p s)) = d_p1 s.
Proof. intros. unfold query. rewrite veqb_refl. destruct k; cbn; auto. Qed.
Lemma fresh_shot : forall g k p0 p1, p0 <> p1 -> fresh g (k, (p0, p1)) =
  match shot g p0 p1 with (Ok _, s') => read_of k s' | (Throw e, _) => Throw e | (UB, _) => UB end.
Proof.
  intros g k p0 p1 H. unfold fresh, ask, query. cbn [after fold_left kind_of ends_of fst snd]. rewrite (veqb_neq _ _ H).
  rewrite beam_other; [destruct (shot g p0 p1) as [[]]; reflexivity|]. cbn. intros E. injection E as -> ->. contradiction.
Qed.
Lemma query_other : forall g k p0 p1 s, p0 <> p1 -> (p0, p1) <> (d_p0 s, d_p1 s) -> fst (query g k p0 p1 s) = fresh g (k, (p0, p1)).
Proof.
  intros g k p0 p1 s H N. rewrite fresh_shot by exact H. unfold query. rewrite (veqb_neq _ _ H), (beam_other g p0 p1 s N). destruct (shot g p0 p1) as [[]]; reflexivity.
Qed.

(** ** histories *)
(** The ends of the last call between two different points. *)
Fixpoint last_ends (h : list call) : option (vec * vec) :=
  match h with
  | [] => None
  | c :: h' => match last_ends h' with Some e => Some e | None => if veqb (fst (ends_of c)) (snd (ends_of c)) then None else Some (ends_of c) end
  end.
Lemma after_ends : forall g h s, match last_ends h with Some e => (d_p0 (after g s h), d_p1 (after g s h)) = e | None => d_p0 (after g s h) = d_p0 s /\ d_p1 (after g s h) = d_p1 s end.
Proof.
  intros g h. induction h as [|[k [p q]] h IH]; intros s; [cbn; auto|]. cbn [last_ends after fold_left]. cbn [kind_of ends_of fst snd].
  specialize (IH (snd (query g k p q s))). destruct (last_ends h); [exact IH|]. unfold after in IH. destruct IH as (A & B).
  destruct (veqb p q) eqn:E.
  - apply veqb_iff in E. subst q. destruct (query_deg_ends g k p s) as (C & D). rewrite A, B, C, D. auto.
  - rewrite A, B. destruct (query_ends g k p q s) as (C & D); [intros ->; rewrite veqb_refl in E; discriminate|]. rewrite C, D. reflexivity.
Qed.
Lemma last_ends_none : forall h, last_ends h = None <-> Forall degenerate h.
Proof.
  induction h as [|c h IH]; [split; auto|]. cbn [last_ends]. split.
  - destruct (last_ends h); [discriminate|]. destruct (veqb (fst (ends_of c)) (snd (ends_of c))) eqn:Q; [|discriminate]. intros _. constructor; [now apply veqb_iff|now apply IH].
  - intros F. inversion F; subst. rewrite (proj2 IH) by assumption. unfold degenerate in *. rewrite (proj2 (veqb_iff _ _)) by assumption. reflexivity.
Qed.
Lemma last_ends_some : forall h e, last_ends h = Some e <-> exists h1 c h2, h = h1 ++ c :: h2 /\ ends_of c = e /\ ~ degenerate c /\ Forall degenerate h2.
Proof.
  induction h as [|c h IH]; intros e; cbn [last_ends].
  - split; [discriminate|]. intros (h1 & c & h2 & E & _). destruct h1; discriminate.
  - pose proof (last_ends_none h) as Hn. split.
    + destruct (last_ends h) eqn:Q.
      * intros E. destruct (proj1 (IH e) E) as (h1 & c' & h2 & E' & A & B & C). exists (c :: h1), c', h2. rewrite E'. auto.
      * destruct (veqb (fst (ends_of c)) (snd (ends_of c))) eqn:V; [discriminate|]. intros E. injection E as <-. exists [], c, h. split; [reflexivity|]. split; [reflexivity|].
        split; [unfold degenerate; intros D; rewrite D, veqb_refl in V; discriminate|now apply Hn].
    + intros (h1 & c' & h2 & E & A & B & C). destruct h1 as [|c0 h1]; cbn in E; injection E as -> ->.
      * rewrite (proj2 Hn C). unfold degenerate in B. rewrite (veqb_neq _ _ B), A. reflexivity.
      * rewrite (proj2 (IH e)); [reflexivity|]. exists h1, c', h2. auto.
Qed.
(** a different pair than the last one: always a fresh answer *)
Lemma other_pair_fresh : forall g h k p0 p1, p0 <> p1 ->
  (forall h1 c h2, h = h1 ++ c :: h2 -> ~ degenerate c -> Forall degenerate h2 -> ends_of c <> (p0, p1)) ->
  ask g h (k, (p0, p1)) = fresh g (k, (p0, p1)).
Proof.
  intros g h k p0 p1 H HL. unfold ask. cbn [kind_of ends_of fst snd]. apply query_other; [exact H|]. pose proof (after_ends g h new_dprops) as A.
  destruct (last_ends h) as [e|] eqn:E.
  - rewrite A. apply last_ends_some in E. destruct E as (h1 & c & h2 & E1 & E2 & E3 & E4). intros Q. apply (HL h1 c h2 E1 E3 E4). congruence.
  - destruct A as (-> & ->). cbn. intros Q. injection Q as -> ->. contradiction.
Qed.
Lemma degenerate_fresh : forall g h k p, ask g h (k, (p, p)) = fresh g (k, (p, p)).
Proof. intros. unfold fresh, ask, query. cbn [kind_of ends_of fst snd]. rewrite veqb_refl. destruct k; reflexivity. Qed.
(** the vectors still belong to the remembered pair *)
Definition good (g : geometry) (s : dprops) : Prop :=
  d_p0 s = d_p1 s \/ shot g (d_p0 s) (d_p1 s) = (Ok tt, s) \/ (exists r, shot g (d_p0 s) (d_p1 s) = (r, s) /\ forall u, r <> Ok u).
Definition harmless (c : call) : Prop := degenerate c -> ~ asks_list (kind_of c).
Lemma good_step : forall g c s, good g s -> harmless c -> good g (snd (query g (kind_of c) (fst (ends_of c)) (snd (ends_of c)) s)).
Proof.
  intros g [k [p q]] s G H. cbn [kind_of ends_of fst snd]. unfold query. destruct (veqb p q) eqn:E.
  - apply veqb_iff in E. subst q. assert (N : ~ asks_list k) by (apply H; reflexivity). destruct k; try exact G; exfalso; apply N; unfold asks_list; auto.
  - destruct (beam_cases g p q s) as [B|(B1 & B2 & B)]; rewrite B; [|exact G].
    assert (K : good g (snd (shot g p q))).
    { pose proof (shot_ends g p q) as (S1 & S2). unfold good. rewrite S1, S2. destruct (shot g p q) as [r s'] eqn:Q. cbn. right. destruct r as [[]|e|]; [left; reflexivity|right|right]; eexists; split; try reflexivity; discriminate. }
    destruct (shot g p q) as [[u|e|] s']; exact K.
Qed.
Lemma good_after : forall g h s, good g s -> Forall harmless h -> good g (after g s h).
Proof.
  intros g h. induction h as [|c h IH]; intros s G F; [exact G|]. inversion F; subst. cbn [after fold_left]. apply IH; [|assumption]. now apply good_step.
Qed.
Lemma good_new : forall g, good g new_dprops. Proof. intros. now left. Qed.
Lemma good_fresh : forall g s k p0 p1, good g s -> p0 <> p1 -> (exists a, fresh g (k, (p0, p1)) = Ok a) -> fst (query g k p0 p1 s) = fresh g (k, (p0, p1)).
Proof.
  intros g s k p0 p1 G H (a & F). destruct (beam_cases g p0 p1 s) as [B|(B1 & B2 & B)].
  - rewrite fresh_shot by exact H. unfold query. rewrite (veqb_neq _ _ H), B. destruct (shot g p0 p1) as [[]]; reflexivity.
  - subst p0 p1. destruct G as [G|[G|(r & G & N)]]; [contradiction| |].
    + rewrite fresh_shot by exact H. rewrite G. unfold query. rewrite (veqb_neq _ _ H), B. reflexivity.
    + rewrite fresh_shot in F by exact H. rewrite G in F. destruct r; [exfalso; eapply N; reflexivity|discriminate|discriminate].
Qed.
Lemma good_ends : forall g k p q s, p <> q -> (p, q) <> (d_p0 s, d_p1 s) -> good g (snd (query g k p q s)).
Proof.
  intros g k p q s H N. unfold query. rewrite (veqb_neq _ _ H), (beam_other g p q s N).
  assert (K : good g (snd (shot g p q))).
  { pose proof (shot_ends g p q) as (S1 & S2). unfold good. rewrite S1, S2. destruct (shot g p q) as [r s'] eqn:Q. cbn. right. destruct r as [[]|e|]; [left; reflexivity|right|right]; eexists; split; try reflexivity; discriminate. }
  destruct (shot g p q) as [[u|e|] s']; exact K.
Qed.
(** no list query between equal points: always a fresh answer, if that is not an exception *)
Lemma undisturbed_fresh : forall g h c, (forall c', In c' h -> degenerate c' -> ~ asks_list (kind_of c')) ->
  (exists a, fresh g c = Ok a) -> ask g h c = fresh g c.
Proof.
  intros g h [k [p q]] HF HO. destruct (veqb p q) eqn:E; [apply veqb_iff in E; subst; apply degenerate_fresh|].
  assert (N : p <> q) by (intros ->; rewrite veqb_refl in E; discriminate).
  unfold ask. cbn [kind_of ends_of fst snd]. apply good_fresh; [|exact N|exact HO]. apply good_after; [apply good_new|]. apply Forall_forall. exact HF.
Qed.
(** the same from the last change of the points on *)
Lemma since_other_fresh : forall g h1 c1 h2 c, ~ degenerate c1 ->
  (forall h3 c3 h4, h1 = h3 ++ c3 :: h4 -> ~ degenerate c3 -> Forall degenerate h4 -> ends_of c3 <> ends_of c1) ->
  (forall c', In c' h2 -> degenerate c' -> ~ asks_list (kind_of c')) -> (exists a, fresh g c = Ok a) ->
  ask g (h1 ++ c1 :: h2) c = fresh g c.
Proof.
  intros g h1 [k1 [p1 q1]] h2 [k [p q]] D1 HL HF HO. destruct (veqb p q) eqn:E; [apply veqb_iff in E; subst; apply degenerate_fresh|].
  assert (N : p <> q) by (intros ->; rewrite veqb_refl in E; discriminate).
  unfold ask. cbn [kind_of ends_of fst snd]. apply good_fresh; [|exact N|exact HO]. unfold after. rewrite fold_left_app. cbn [fold_left kind_of ends_of fst snd].
  apply good_after; [|apply Forall_forall; exact HF]. apply good_ends; [exact D1|].
  pose proof (after_ends g h1 new_dprops) as A. destruct (last_ends h1) as [e|] eqn:Q.
  - unfold after in A. rewrite A. apply last_ends_some in Q. destruct Q as (h3 & c3 & h4 & Q1 & Q2 & Q3 & Q4). intros W. apply (HL h3 c3 h4 Q1 Q3 Q4). cbn. congruence.
  - unfold after in A. destruct A as (-> & ->). cbn. intros W. injection W as -> ->. apply D1. reflexivity.
Qed.
(** ** where it fails *)
Lemma names_emptied : forall g k p0 p1 p l, p0 <> p1 -> k = QMaterials \/ k = QVolumes -> fresh g (k, (p0, p1)) = Ok (ANames l) ->
  ask g [(k, (p0, p1)); (k, (p, p))] (k, (p0, p1)) = Ok (ANames []).
Proof.
  intros g k p0 p1 p l H HK F. unfold ask, after. cbn [fold_left kind_of ends_of fst snd].
  set (s := snd (query g k p0 p1 new_dprops)). destruct (query_ends g k p0 p1 new_dprops H) as (A & B). fold s in A, B.
  unfold query at 1. rewrite (veqb_neq _ _ H). unfold query. rewrite veqb_refl.
  destruct HK as [->| ->]; cbn [snd clear_of]; unfold beamOn; cbn [d_p0 d_p1]; rewrite A, B, !veqb_refl; reflexivity.
Qed.
Lemma nlen_zero : forall l d, (forall x, In x l -> x = 0) -> nlen l d = Ok 0.
Proof.
  induction l as [|y l IH]; intros d H; [reflexivity|]. cbn [nlen]. rewrite (H y (or_introl eq_refl)). destruct (Reqb_spec 0 0); [|lra]. apply IH. intros; apply H; now right.
Qed.
Lemma nlen_undefined : forall l d x, nlen l d = Ok x -> x <> 0 -> nlen l [] = UB.
Proof.
  induction l as [|y l IH]; intros d x H X; [cbn in H; injection H as <-; contradiction|]. cbn [nlen tl] in *. destruct (Reqb y 0); [|reflexivity]. eapply IH; eassumption.
Qed.
Lemma lengths_undefined : forall g k1 k p0 p1 p x, p0 <> p1 -> k = QNRad \/ k = QNInt ->
  fresh g (k, (p0, p1)) = Ok (ANumber x) -> x <> 0 ->
  ask g [(k1, (p0, p1)); (QThicknesses, (p, p))] (k, (p0, p1)) = UB.
Proof.
  intros g k1 k p0 p1 p x H HK F HX. rewrite fresh_shot in F by exact H.
  destruct (shot g p0 p1) as [[[]|e|] s] eqn:S; try discriminate.
  pose proof (shot_ends g p0 p1) as (A & B). rewrite S in A, B. cbn [snd] in A, B.
  unfold ask, after. cbn [fold_left kind_of ends_of fst snd].
  assert (Q : snd (query g k1 p0 p1 new_dprops) = s).
  { unfold query. rewrite (veqb_neq _ _ H), beam_other, S; [reflexivity|]. cbn. intros E. injection E as -> ->. contradiction. }
  rewrite Q.
  assert (Q2 : snd (query g QThicknesses p p s) = mkDP p0 p1 (d_vol s) (d_mat s) [] (d_int s) (d_rad s)) by (unfold query; rewrite veqb_refl; cbn; rewrite A, B; reflexivity).
  rewrite Q2. unfold query, beamOn. rewrite (veqb_neq _ _ H). cbn [d_p0 d_p1]. rewrite !veqb_refl. cbn [fst andb].
  destruct HK as [->| ->]; cbn [read_of d_rad d_int d_dist] in *.
  - destruct (nlen (d_rad s) (d_dist s)) eqn:E; try discriminate. cbn in F. injection F as ->. rewrite (nlen_undefined _ _ _ E HX). reflexivity.
  - destruct (nlen (d_int s) (d_dist s)) eqn:E; try discriminate. cbn in F. injection F as ->. rewrite (nlen_undefined _ _ _ E HX). reflexivity.
Qed.
Lemma failure_forgotten : forall g k k' p0 p1, p0 <> p1 -> g p0 p1 = None ->
  fresh g (k, (p0, p1)) = Throw (EGear "OutsideGeometryException") /\
  ask g [(k', (p0, p1))] (k, (p0, p1)) = Ok match k with QMaterials | QVolumes => ANames [] | QThicknesses => ALengths [] | _ => ANumber 0 end.
Proof.
  intros g k k' p0 p1 H HG. split; [rewrite fresh_shot by exact H; unfold shot; rewrite HG; reflexivity|].
  unfold ask, after. cbn [fold_left kind_of ends_of fst snd].
  assert (Q : snd (query g k' p0 p1 new_dprops) = mkDP p0 p1 [] [] [] [] []).
  { unfold query. rewrite (veqb_neq _ _ H), beam_other; [unfold shot; rewrite HG; reflexivity|]. cbn. intros E. injection E as -> ->. contradiction. }
  rewrite Q. unfold query. rewrite (veqb_neq _ _ H). unfold beamOn. cbn [d_p0 d_p1]. rewrite !veqb_refl. destruct k; reflexivity.
Qed.

(** ** the way of the track *)
Lemma way_dist : forall p0 p1 t p, p0 <> p1 -> 0 <= t -> on_way p0 p1 t p -> vdistance p p0 = t.
Proof.
  intros p0 p1 t p H Ht E. unfold vdistance. rewrite E. unfold vr, vscale. cbn [vx vy vz].
  assert (D : 0 < vdistance p1 p0).
  { unfold vdistance, vr. apply sqrt_lt_R0. destruct p0 as [a b c], p1 as [d e f]. cbn. pose proof (Rle_0_sqr (d - a)). pose proof (Rle_0_sqr (e - b)). pose proof (Rle_0_sqr (f - c)). unfold Rsqr in *.
    assert (d - a <> 0 \/ e - b <> 0 \/ f - c <> 0) as [N|[N|N]].
    { destruct (Req_dec (d - a) 0); [|now left]. destruct (Req_dec (e - b) 0); [|right; now left]. destruct (Req_dec (f - c) 0); [|right; now right]. exfalso. apply H. f_equal; lra. }
    all: pose proof (Rsqr_pos_lt _ N) as P; unfold Rsqr in P; lra. }
  set (L := vdistance p1 p0) in *. set (w := vsub p1 p0).
  replace (t / L * vx w * (t / L * vx w) + t / L * vy w * (t / L * vy w) + t / L * vz w * (t / L * vz w)) with ((t / L * t / L) * (vx w * vx w + vy w * vy w + vz w * vz w)) by (field; lra).
  assert (S : vx w * vx w + vy w * vy w + vz w * vz w = L * L).
  { unfold L, vdistance, vr. fold w. rewrite sqrt_sqrt; [reflexivity|]. pose proof (Rle_0_sqr (vx w)). pose proof (Rle_0_sqr (vy w)). pose proof (Rle_0_sqr (vz w)). unfold Rsqr in *. lra. }
  rewrite S. replace (t / L * t / L * (L * L)) with (t * t) by (field; lra). apply sqrt_square. exact Ht.
Qed.
Lemma way_rest : forall p0 p1 t p, p0 <> p1 -> t <= vdistance p1 p0 -> on_way p0 p1 t p -> vdistance p1 p = vdistance p1 p0 - t.
Proof.
  intros p0 p1 t p H Ht E.
  assert (D : 0 < vdistance p1 p0).
  { destruct (Rle_lt_dec (vdistance p1 p0) 0) as [Q|Q]; [|exact Q]. exfalso. unfold vdistance, vr in Q.
    assert (Z : 0 <= vx (vsub p1 p0) * vx (vsub p1 p0) + vy (vsub p1 p0) * vy (vsub p1 p0) + vz (vsub p1 p0) * vz (vsub p1 p0)).
    { pose proof (Rle_0_sqr (vx (vsub p1 p0))). pose proof (Rle_0_sqr (vy (vsub p1 p0))). pose proof (Rle_0_sqr (vz (vsub p1 p0))). unfold Rsqr in *. lra. }
    assert (Q0 : sqrt (vx (vsub p1 p0) * vx (vsub p1 p0) + vy (vsub p1 p0) * vy (vsub p1 p0) + vz (vsub p1 p0) * vz (vsub p1 p0)) = 0) by (pose proof (sqrt_pos (vx (vsub p1 p0) * vx (vsub p1 p0) + vy (vsub p1 p0) * vy (vsub p1 p0) + vz (vsub p1 p0) * vz (vsub p1 p0))); lra).
    apply sqrt_eq_0 in Q0; [|exact Z]. destruct p0 as [a b c], p1 as [d e f]. cbn in Q0. apply H.
    pose proof (Rle_0_sqr (d - a)). pose proof (Rle_0_sqr (e - b)). pose proof (Rle_0_sqr (f - c)). unfold Rsqr in *.
    f_equal; apply Rminus_diag_uniq_sym; apply Rsqr_0_uniq; unfold Rsqr; lra. }
  assert (S : vsub p1 p = vscale (1 - t / vdistance p1 p0) (vsub p1 p0)).
  { unfold on_way in E. destruct p0 as [a b c], p1 as [d e f], p as [x y z]. unfold vsub, vscale in *. cbn [vx vy vz] in *. injection E as E1 E2 E3.
    set (L := vdistance _ _) in *. f_equal; lra. }
  unfold vdistance at 1. rewrite S. unfold vr, vscale. cbn [vx vy vz]. set (L := vdistance p1 p0) in *. set (w := vsub p1 p0).
  set (u := 1 - t / L).
  replace (u * vx w * (u * vx w) + u * vy w * (u * vy w) + u * vz w * (u * vz w)) with (u * u * (vx w * vx w + vy w * vy w + vz w * vz w)) by ring.
  assert (S2 : vx w * vx w + vy w * vy w + vz w * vz w = L * L).
  { unfold L, vdistance, vr. fold w. rewrite sqrt_sqrt; [reflexivity|]. pose proof (Rle_0_sqr (vx w)). pose proof (Rle_0_sqr (vy w)). pose proof (Rle_0_sqr (vz w)). unfold Rsqr in *. lra. }
  rewrite S2. replace (u * u * (L * L)) with ((L - t) * (L - t)) by (unfold u; field; lra). apply sqrt_square. lra.
Qed.
Definition pushes (s : dprops) (l : list (gnode * R)) : dprops := fold_left (fun s x => push s (fst x) (snd x)) l s.
Lemma pushes_eq : forall l s, pushes s l = mkDP (d_p0 s) (d_p1 s) (d_vol s ++ map (fun x => gn_vol (fst x)) l) (d_mat s ++ map (fun x => gn_mat (fst x)) l)
   (d_dist s ++ map snd l) (d_int s ++ map (fun x => gn_int (fst x)) l) (d_rad s ++ map (fun x => gn_rad (fst x)) l).
Proof.
  induction l as [|x l IH]; intros s; [destruct s; cbn; rewrite !app_nil_r; reflexivity|]. unfold pushes in *. cbn [fold_left]. rewrite IH. unfold push. cbn. rewrite <- !app_assoc. reflexivity.
Qed.
Lemma steps_pieces : forall p0 p1, p0 <> p1 -> forall l r t0 n s, 0 <= t0 <= vdistance p1 p0 -> increasing t0 l -> reports p0 p1 t0 l r ->
  (match l with [] => True | (m, _) :: _ => n = Some m end) ->
  steps p0 p1 n r s = Ok (pushes s (pieces t0 (vdistance p1 p0) l)).
Proof.
  intros p0 p1 HP l. induction l as [|[m t] l IH]; intros r t0 n s H0 HI HR HN.
  - destruct r as [|[v v2] r]; [reflexivity|]. cbn [reports] in HR. cbn [steps pieces pushes fold_left]. destruct HR as [E|E]; rewrite E; [destruct (nv_node v); reflexivity|reflexivity].
  - destruct r as [|[v v2] r]; [contradiction|]. cbn [reports] in HR. destruct HR as (O & N & N' & P & Q & L & HR). cbn [increasing] in HI. destruct HI as (HI & HI').
    assert (M : 0 < MINSTEP) by (unfold MINSTEP; lra). subst n. cbn [steps pieces]. destruct (nv_node v) as [n'|] eqn:EN; [|contradiction]. rewrite O.
    destruct (Rltb_spec (nv_len v) MINSTEP); [rewrite L in *; lra|]. rewrite (way_dist p0 p1 t (nv_pos v)) by (assumption || lra).
    destruct (Rltb_spec (vdistance p1 p0) t) as [LT|LE].
    + rewrite (way_rest p0 p1 t0 (nv_prev v)) by (assumption || lra). reflexivity.
    + rewrite O. rewrite (IH r t (nv_node v) (push s m (nv_len v))); try assumption; [|lra|].
      * rewrite L. reflexivity.
      * rewrite EN. destruct l as [|[m' t'] l]; [exact I|]. exact N.
Qed.
(** ** what the queries answer *)
Lemma nlen_sum : forall (f : gnode -> R) l, nlen (map (fun x => f (fst x)) l) (map snd l) = Ok (sum_list (map (fun x => part_len (snd x) (f (fst x))) l)).
Proof.
  intros f l. induction l as [|[n d] l IH]; [reflexivity|]. cbn [map fst snd nlen tl sum_list]. unfold part_len at 1. destruct (Reqb_spec (f n) 0); rewrite IH; [cbn [rmap]; rewrite Rplus_0_l; reflexivity|reflexivity].
Qed.
Lemma answers : forall g p0 p1 m l r, p0 <> p1 -> g p0 p1 = Some (m, r) -> (match l with [] => True | (m', _) :: _ => m' = m end) ->
  increasing 0 l -> reports p0 p1 0 l r ->
  let ps := pieces 0 (vdistance p1 p0) l in
  fresh g (QMaterials, (p0, p1)) = Ok (ANames (map (fun x => gn_mat (fst x)) ps)) /\
  fresh g (QVolumes, (p0, p1)) = Ok (ANames (map (fun x => gn_vol (fst x)) ps)) /\
  fresh g (QThicknesses, (p0, p1)) = Ok (ALengths (map snd ps)) /\
  fresh g (QNRad, (p0, p1)) = Ok (ANumber (sum_list (map (fun x => part_len (snd x) (gn_rad (fst x))) ps))) /\
  fresh g (QNInt, (p0, p1)) = Ok (ANumber (sum_list (map (fun x => part_len (snd x) (gn_int (fst x))) ps))).
Proof.
  intros g p0 p1 m l r HP HG HM HI HR ps.
  assert (S : shot g p0 p1 = (Ok tt, pushes (mkDP p0 p1 [] [] [] [] []) ps)).
  { unfold shot. rewrite HG. rewrite (steps_pieces p0 p1 HP l r 0 (Some m)); try assumption; [reflexivity| |].
    - split; [lra|]. unfold vdistance, vr. apply sqrt_pos.
    - destruct l as [|[m' t'] l]; [exact I|]. now subst. }
  rewrite !fresh_shot, S by exact HP. rewrite pushes_eq. cbn [read_of d_mat d_vol d_dist d_rad d_int app d_p0 d_p1]. rewrite !nlen_sum. cbn [rmap]. auto.
Qed.
Lemma pieces_sum : forall l t0 L, t0 <= L -> increasing t0 l -> reaches L l -> sum_list (map snd (pieces t0 L l)) = L - t0.
Proof.
  intros l. induction l as [|[n t] l IH]; intros t0 L H HI (n' & t' & I & LT); [contradiction|]. cbn [increasing] in HI. destruct HI as (HI & HI'). cbn [pieces].
  destruct (Rltb_spec L t); [cbn; lra|]. cbn [map snd sum_list]. rewrite IH; [lra|lra|exact HI'|]. destruct I as [E|I]; [injection E as -> ->; lra|]. exists n', t'. auto.
Qed.
Lemma pieces_nonneg : forall l t0 L n d, t0 <= L -> increasing t0 l -> In (n, d) (pieces t0 L l) -> 0 <= d.
Proof.
  intros l. induction l as [|[m t] l IH]; intros t0 L n d H HI Hin; [contradiction|]. cbn [increasing] in HI. destruct HI as (HI & HI'). cbn [pieces] in Hin. assert (M : 0 < MINSTEP) by (unfold MINSTEP; lra).
  destruct (Rltb_spec L t).
  - destruct Hin as [E|[]]. injection E as <- <-. lra.
  - destruct Hin as [E|Hin]; [injection E as <- <-; lra|]. eapply IH; [| |exact Hin]; [lra|exact HI'].
Qed.
Lemma pieces_short : forall l t0 L, increasing t0 l -> (forall n t, In (n, t) l -> t <= L) ->
  sum_list (map snd (pieces t0 L l)) = last (map snd l) t0 - t0.
Proof.
  intros l. induction l as [|[n t] l IH]; intros t0 L HI HL; [cbn; lra|]. cbn [increasing] in HI. destruct HI as (HI & HI'). cbn [pieces].
  destruct (Rltb_spec L t) as [Q|Q]; [specialize (HL n t (or_introl eq_refl)); lra|]. cbn [map snd sum_list]. rewrite IH; [|exact HI'|intros n' t' I; apply (HL n' t'); now right].
  assert (E : forall (q : list R) d t, last (t :: q) d = last q t).
  { clear. induction q as [|x q IH]; intros d t; [reflexivity|]. change (last (x :: q) d = last (x :: q) t). rewrite !IH. reflexivity. }
  cbn [map snd]. rewrite E. lra.
Qed.
Lemma thickness_total : forall g p0 p1 m l r, p0 <> p1 -> g p0 p1 = Some (m, r) -> (match l with [] => True | (m', _) :: _ => m' = m end) ->
  increasing 0 l -> reports p0 p1 0 l r ->
  exists ds, fresh g (QThicknesses, (p0, p1)) = Ok (ALengths ds) /\ (forall d, In d ds -> 0 <= d) /\
  (reaches (vdistance p1 p0) l -> sum_list ds = vdistance p1 p0) /\
  ((forall n t, In (n, t) l -> t <= vdistance p1 p0) -> sum_list ds = last (map snd l) 0).
Proof.
  intros g p0 p1 m l r HP HG HM HI HR. destruct (answers g p0 p1 m l r HP HG HM HI HR) as (_ & _ & E & _). eexists. split; [exact E|].
  assert (L0 : 0 <= vdistance p1 p0) by (unfold vdistance, vr; apply sqrt_pos). split; [|split].
  - intros d Hin. apply in_map_iff in Hin. destruct Hin as ([n d'] & <- & Hin). eapply pieces_nonneg; [| |exact Hin]; [exact L0|exact HI].
  - intros HL. rewrite pieces_sum; [lra|exact L0|exact HI|exact HL].
  - intros HL. rewrite pieces_short by assumption. lra.
Qed.
Lemma lengths_nonneg : forall g p0 p1 m l r x, p0 <> p1 -> g p0 p1 = Some (m, r) -> (match l with [] => True | (m', _) :: _ => m' = m end) ->
  increasing 0 l -> reports p0 p1 0 l r -> (forall n t, In (n, t) l -> 0 <= gn_rad n /\ 0 <= gn_int n) ->
  fresh g (QNRad, (p0, p1)) = Ok (ANumber x) \/ fresh g (QNInt, (p0, p1)) = Ok (ANumber x) -> 0 <= x.
Proof.
  intros g p0 p1 m l r x HP HG HM HI HR HN HX. destruct (answers g p0 p1 m l r HP HG HM HI HR) as (_ & _ & _ & E1 & E2).
  assert (L0 : 0 <= vdistance p1 p0) by (unfold vdistance, vr; apply sqrt_pos).
  assert (IN : forall n d, In (n, d) (pieces 0 (vdistance p1 p0) l) -> exists t, In (n, t) l).
  { clear. generalize 0. induction l as [|[m t] l IH]; intros t0 n d H; [contradiction|]. cbn [pieces] in H. destruct (Rltb _ t); [destruct H as [E|[]]; injection E as <- <-; exists t; now left|].
    destruct H as [E|H]; [injection E as <- <-; exists t; now left|]. destruct (IH _ _ _ H) as (t' & I). exists t'. now right. }
  assert (G : forall (f : gnode -> R) ps, (forall n d, In (n, d) ps -> 0 <= f n /\ 0 <= d) -> 0 <= sum_list (map (fun x => part_len (snd x) (f (fst x))) ps)).
  { clear. intros f ps. induction ps as [|[n d] ps IH]; intros H; [cbn; lra|]. cbn [map fst snd sum_list]. destruct (H n d (or_introl eq_refl)) as (A & B).
    assert (0 <= part_len d (f n)); [|assert (0 <= sum_list (map (fun x => part_len (snd x) (f (fst x))) ps)) by (apply IH; intros; apply H; now right); lra].
    unfold part_len. destruct (Reqb_spec (f n) 0); [lra|]. apply Rmult_le_pos; [lra|]. left. apply Rinv_0_lt_compat. lra. }
  destruct HX as [HX|HX]; rewrite HX in *; [injection E1 as ->|injection E2 as ->].
  - apply G. intros n d Hin. split; [destruct (IN n d Hin) as (t & I); apply (HN n t I)|]. eapply pieces_nonneg; [| |exact Hin]; [exact L0|exact HI].
  - apply G. intros n d Hin. split; [destruct (IN n d Hin) as (t & I); apply (HN n t I)|]. eapply pieces_nonneg; [| |exact Hin]; [exact L0|exact HI].
Qed.
(** for any geometry: the three lists have one entry per volume, and the two numbers are the sums over them *)
Lemma steps_lengths : forall p0 p1 l n s s', steps p0 p1 n l s = Ok s' -> List.length (d_vol s) = List.length (d_mat s) -> List.length (d_dist s) = List.length (d_mat s) ->
  List.length (d_int s) = List.length (d_mat s) -> List.length (d_rad s) = List.length (d_mat s) ->
  List.length (d_vol s') = List.length (d_mat s') /\ List.length (d_dist s') = List.length (d_mat s') /\ List.length (d_int s') = List.length (d_mat s') /\ List.length (d_rad s') = List.length (d_mat s').
Proof.
  intros p0 p1 l. induction l as [|[v v2] l IH]; intros n s s' H A B C D; cbn [steps] in H; [injection H as <-; auto|].
  assert (P : forall m x, List.length (d_vol (push s m x)) = List.length (d_mat (push s m x)) /\ List.length (d_dist (push s m x)) = List.length (d_mat (push s m x)) /\
     List.length (d_int (push s m x)) = List.length (d_mat (push s m x)) /\ List.length (d_rad (push s m x)) = List.length (d_mat (push s m x))).
  { intros. unfold push. cbn. rewrite !app_length. cbn. lia. }
  destruct (nv_node v); [|injection H as <-; auto]. destruct (nv_out v); [injection H as <-; auto|]. destruct n as [n|]; [|discriminate].
  destruct (Rltb (vdistance p1 p0) _); [injection H as <-; apply P|]. destruct (nv_out _); [injection H as <-; apply P|]. destruct (P n (nv_len v)) as (P1 & P2 & P3 & P4). eapply IH; eassumption.
Qed.
Lemma nlen_over : forall len d, List.length d = List.length len -> nlen len d = Ok (sum_over d len).
Proof.
  induction len as [|y len IH]; intros [|x d] H; try discriminate; [reflexivity|]. injection H as H. cbn [nlen tl sum_over]. unfold part_len. destruct (Reqb y 0); rewrite (IH d H); cbn [rmap]; [f_equal; ring|reflexivity].
Qed.
Lemma parallel : forall g p0 p1 ns, p0 <> p1 -> fresh g (QMaterials, (p0, p1)) = Ok (ANames ns) ->
  exists vs ds xs is_, fresh g (QVolumes, (p0, p1)) = Ok (ANames vs) /\ fresh g (QThicknesses, (p0, p1)) = Ok (ALengths ds) /\
  List.length vs = List.length ns /\ List.length ds = List.length ns /\ List.length xs = List.length ns /\ List.length is_ = List.length ns /\
  fresh g (QNRad, (p0, p1)) = Ok (ANumber (sum_over ds xs)) /\ fresh g (QNInt, (p0, p1)) = Ok (ANumber (sum_over ds is_)).
Proof.
  intros g p0 p1 ns H F. rewrite !fresh_shot in * by exact H. destruct (shot g p0 p1) as [[[]|e|] s] eqn:S; try discriminate. cbn [read_of] in *. injection F as <-.
  assert (L : List.length (d_vol s) = List.length (d_mat s) /\ List.length (d_dist s) = List.length (d_mat s) /\ List.length (d_int s) = List.length (d_mat s) /\ List.length (d_rad s) = List.length (d_mat s)).
  { unfold shot in S. destruct (g p0 p1) as [[n l]|]; [|discriminate]. destruct (steps p0 p1 (Some n) l _) eqn:E; try discriminate. injection S as <-. eapply steps_lengths; [exact E|reflexivity|reflexivity|reflexivity|reflexivity]. }
  destruct L as (L1 & L2 & L3 & L4). exists (d_vol s), (d_dist s), (d_rad s), (d_int s).
  rewrite (nlen_over (d_rad s)), (nlen_over (d_int s)) by congruence. repeat split; assumption.
Qed.
(** ** a step that is too short *)
Lemma short_step : forall g p0 p1 n v w n2 v3 w3 l, p0 <> p1 ->
  g p0 p1 = Some (n, (v, w) :: (v3, w3) :: l) ->
  nv_node v <> None -> nv_out v = false -> nv_len v < MINSTEP -> nv_node w = Some n2 -> nv_out w = false -> vdistance (nv_pos w) p0 <= vdistance p1 p0 ->
  nv_node v3 <> None -> nv_out v3 = false -> MINSTEP <= nv_len v3 -> vdistance p1 p0 < vdistance (nv_pos v3) p0 ->
  forall t, t <= vdistance p1 p0 -> on_way p0 p1 t (nv_pos w) -> nv_prev v3 = nv_pos w ->
  exists ds, fresh g (QThicknesses, (p0, p1)) = Ok (ALengths ds) /\ sum_list ds = vdistance p1 p0 - (t - nv_len v) /\
  fresh g (QMaterials, (p0, p1)) = Ok (ANames [gn_mat n; gn_mat n2]).
Proof.
  intros g p0 p1 n v w n2 v3 w3 l H HG N1 O1 L1 N2 O2 D2 N3 O3 L3 D3 t HT HW HV.
  assert (S : shot g p0 p1 = (Ok tt, pushes (mkDP p0 p1 [] [] [] [] []) [(n, nv_len v); (n2, vdistance p1 (nv_prev v3))])).
  { unfold shot. rewrite HG. cbn [steps]. destruct (nv_node v); [|contradiction]. rewrite O1. destruct (Rltb_spec (nv_len v) MINSTEP); [|lra].
    destruct (Rltb_spec (vdistance p1 p0) (vdistance (nv_pos w) p0)); [lra|]. rewrite O2, N2. destruct (nv_node v3); [|contradiction]. rewrite O3.
    destruct (Rltb_spec (nv_len v3) MINSTEP); [lra|]. destruct (Rltb_spec (vdistance p1 p0) (vdistance (nv_pos v3) p0)); [|lra]. reflexivity. }
  exists [nv_len v; vdistance p1 (nv_prev v3)]. rewrite !fresh_shot, S by exact H. rewrite pushes_eq. cbn [read_of d_dist d_mat app map fst snd]. split; [reflexivity|]. split; [|reflexivity].
  rewrite HV, (way_rest p0 p1 t) by assumption. cbn [sum_list]. lra.
Qed.
Lemma between_equal : forall g h p k,
  ask g h (k, (p, p)) = Ok (match k with QMaterials | QVolumes => ANames [] | QThicknesses => ALengths [] | QNRad | QNInt => ANumber 0 end).
Proof. intros g h p k. unfold ask, query. cbn [kind_of ends_of fst snd]. rewrite veqb_refl. destruct k; reflexivity. Qed.
