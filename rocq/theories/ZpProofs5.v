(** intersectionLadder. *)
From Coq Require Import ZArith List Bool Reals Lra Lia Psatz.
From Verif Require Import Base RBase VecModel DiskSpec RectSpec Trig ZpModel ZpSpec ZpProofs ZpProofs2 ZpProofs3.
Import ListNotations.
Open Scope R_scope.

Definition dot (a b : vec) : R := vx a * vx b + vy a * vy b + vz a * vz b.
Definition unit2 (u w : vec) : Prop := dot u u = 1 /\ dot w w = 1 /\ dot u w = 0.
Lemma accept_iff : forall vn u w lu hu lv hv, unit2 u w ->
  (isEqualV (correctToBorderPoint vn u w lu hu lv hv) vn = true <-> lu <= dot vn u <= hu /\ lv <= dot vn w <= hv).
Proof.
  intros [a b c] [u1 u2 u3] [w1 w2 w3] lu hu lv hv (U & W & O). unfold dot in *. cbn [vx vy vz] in *.
  unfold isEqualV, correctToBorderPoint. cbn [vx vy vz].
  set (nu := a * u1 + b * u2 + c * u3). set (nv := a * w1 + b * w2 + c * w3).
  set (gu := if Rltb hu nu then hu else if Rltb nu lu then lu else nu).
  set (gv := if Rltb hv nv then hv else if Rltb nv lv then lv else nv).
  destruct (negb (Rltb nu lu || Rltb hu nu || Rltb nv lv || Rltb hv nv)) eqn:C.
  - apply negb_true_iff in C. rewrite !orb_false_iff, !Rltb_false in C. destruct C as (((C1 & C2) & C3) & C4).
    split; [intros _; lra|]. intros _. unfold veqb. cbn [vx vy vz]. rewrite !andb_true_iff, !Reqb_true. auto.
  - apply negb_false_iff in C. rewrite !orb_true_iff, !Rltb_true in C. split; [|lra].
    intros E. exfalso. unfold veqb in E. cbn [vx vy vz] in E. rewrite !andb_true_iff, !Reqb_true in E. destruct E as ((E1 & E2) & E3).
    assert (Gu : gu = nu).
    { unfold nu. rewrite <- E1, <- E2, <- E3.
      transitivity (gu * (u1 * u1 + u2 * u2 + u3 * u3) + gv * (u1 * w1 + u2 * w2 + u3 * w3)); [rewrite U, O; ring|ring]. }
    assert (Gv : gv = nv).
    { unfold nv. rewrite <- E1, <- E2, <- E3.
      transitivity (gu * (u1 * w1 + u2 * w2 + u3 * w3) + gv * (w1 * w1 + w2 * w2 + w3 * w3)); [rewrite W, O; ring|ring]. }
    unfold gu in Gu. unfold gv in Gv.
    destruct (Rltb_spec hu nu); [lra|]. destruct (Rltb_spec nu lu); [lra|].
    destruct (Rltb_spec hv nv); [lra|]. destruct (Rltb_spec nv lv); [lra|]. lra.
Qed.

Lemma pli_spec : forall r n p v, dot n n = 1 ->
  let x := planeLineIntersection r n p v in
  (x = vzero \/ on_ray p v x /\ dot x n = dot r n /\ dot v n <> 0).
Proof.
  intros [r1 r2 r3] [a b c] [p1 p2 p3] [v1 v2 v3] H. unfold planeLineIntersection, dot in *. cbn [vx vy vz] in *. rewrite H, sqrt_1.
  replace ((r1 * a + r2 * b + r3 * c) / 1) with (r1 * a + r2 * b + r3 * c) by field.
  destruct (Reqb_spec (a * v1 + b * v2 + c * v3) 0) as [|N]; [now left|].
  destruct (Rltb_spec ((r1 * a + r2 * b + r3 * c - a * p1 - b * p2 - c * p3) / (a * v1 + b * v2 + c * v3)) 0) as [|T]; [now left|].
  right. set (t := _ / _) in *. split; [exists t; cbn; auto|]. cbn [vx vy vz]. split; [|lra].
  transitivity (a * p1 + b * p2 + c * p3 + t * (a * v1 + b * v2 + c * v3)); [ring|]. unfold t. field. exact N.
Qed.
Lemma pli_exact : forall r n p v x, dot n n = 1 -> on_ray p v x -> dot x n = dot r n -> dot v n <> 0 -> planeLineIntersection r n p v = x.
Proof.
  intros [r1 r2 r3] [a b c] [p1 p2 p3] [v1 v2 v3] [x1 x2 x3] H (t & T & E1 & E2 & E3) E N.
  unfold planeLineIntersection, dot in *. cbn [vx vy vz] in *. rewrite H, sqrt_1.
  replace ((r1 * a + r2 * b + r3 * c) / 1) with (r1 * a + r2 * b + r3 * c) by field.
  destruct (Reqb_spec (a * v1 + b * v2 + c * v3) 0) as [|N']; [lra|].
  replace ((r1 * a + r2 * b + r3 * c - a * p1 - b * p2 - c * p3) / (a * v1 + b * v2 + c * v3)) with t.
  2:{ rewrite <- E, E1, E2, E3. field. exact N'. }
  destruct (Rltb_spec t 0); [lra|]. congruence.
Qed.
Lemma vlen_vdist : forall p q, vlen (vsub q p) = vdist p q.
Proof. intros [] []. reflexivity. Qed.

(** ** one face *)
Lemma try_spec : forall p v s r n u w lu hu lv hv b, dot n n = 1 -> unit2 u w ->
  let acc := fun x : vec => lu <= dot (vsub x s) u <= hu /\ lv <= dot (vsub x s) w <= hv in
  let b' := try_face p v s r n u w lu hu lv hv b in
  fst b' <= fst b /\
  (b' = b \/ fst b' = vdist p (snd b') /\ fst b' < fst b /\ acc (snd b') /\
             (snd b' = vzero \/ on_ray p v (snd b') /\ dot (snd b') n = dot r n /\ dot v n <> 0)) /\
  (acc (planeLineIntersection r n p v) -> fst b' <= vdist p (planeLineIntersection r n p v)) /\
  (forall x, on_ray p v x -> acc x -> dot x n = dot r n -> dot v n <> 0 -> fst b' <= vdist p x).
Proof.
  intros p v s r n u w lu hu lv hv b Hn Hu acc b'.
  assert (Eb : b' = try_face p v s r n u w lu hu lv hv b) by reflexivity. clearbody b'. unfold try_face in Eb.
  set (x := planeLineIntersection r n p v) in *. pose proof (accept_iff (vsub x s) u w lu hu lv hv Hu) as AI.
  assert (G : forall y, on_ray p v y -> dot y n = dot r n -> dot v n <> 0 -> x = y) by (intros; apply pli_exact; assumption).
  destruct (isEqualV _ _) eqn:E.
  - rewrite vlen_vdist in Eb.
    destruct (Rltb_spec (vdist p x) (fst b)) as [L|L].
    + subst b'. cbn [fst snd]. split; [lra|]. split.
      * right. split; [reflexivity|]. split; [exact L|]. split; [now apply AI|]. apply (pli_spec r n p v Hn).
      * split; [intros; lra|]. intros y R1 A R2 R3. rewrite (G y) by assumption. lra.
    + subst b'. split; [lra|]. split; [now left|]. split; [intros; lra|]. intros y R1 A R2 R3. rewrite <- (G y) by assumption. lra.
  - subst b'. assert (N : ~ acc x) by (intros A; apply AI in A; discriminate).
    split; [lra|]. split; [now left|]. split; [intros A; exfalso; apply N; exact A|].
    intros y R1 A R2 R3. exfalso. apply N. rewrite (G y) by assumption. exact A.
Qed.

(** ** one ladder *)
Definition crossed_side (gap : R) (q : zpart) (az : R) (v : vec) (sg : R) (x : vec) : Prop :=
  in_volume gap q az x /\ 0 <= sg * vz x /\
  (sg = 1 /\ along az v <> 0 /\ (along az x = q_d q \/ along az x = q_d q + q_t q) \/
   sg = 1 /\ across az v <> 0 /\ (across az x = q_off q - q_w q / 2 \/ across az x = q_off q + q_w q / 2) \/
   vz v <> 0 /\ (Rabs (vz x) = gap / 2 \/ Rabs (vz x) = gap / 2 + q_len q)).
Lemma crossed_sides : forall gap q az v x, 0 < gap -> (crossed gap q az v x <-> crossed_side gap q az v 1 x \/ crossed_side gap q az v (-1) x).
Proof.
  intros gap q az v x Hg. unfold crossed, crossed_side. split.
  - intros (V & [(A & B & C) | [(A & B & C) | (A & B)]]).
    + left. split; [exact V|]. split; [lra|]. left. auto.
    + left. split; [exact V|]. split; [lra|]. right. left. auto.
    + destruct (Rle_lt_dec 0 (vz x)); [left|right]; (split; [exact V|]; split; [lra|]; right; right; auto).
  - intros [(V & S & H) | (V & S & H)]; (split; [exact V|]).
    + destruct H as [(A & B & C) | [(A & B & C) | (A & B)]]; [left; split; [lra|auto]|right; left; split; [lra|auto]|right; right; auto].
    + destruct H as [(A & B & C) | [(A & B & C) | (A & B)]]; [exfalso; lra|exfalso; lra|right; right; auto].
Qed.

Definition zS (gap sg : R) := sg * (gap / 2).
Definition zE (gap : R) (q : zpart) (sg : R) := sg * (q_len q + gap / 2).
Definition face_acc (q : zpart) (az : R) (lu hu lv hv : R) (f g : vec -> R) (x : vec) : Prop := lu <= f x <= hu /\ lv <= g x <= hv.

Definition step_ok (P : vec -> Prop) (p : vec) (b b' : best) : Prop :=
  fst b' <= fst b /\ (b' = b \/ fst b' = vdist p (snd b') /\ fst b' < fst b /\ P (snd b')) /\ (forall x, P x -> fst b' <= vdist p x).
Lemma step_seq : forall P Q p b b1 b2, step_ok P p b b1 -> step_ok Q p b1 b2 -> step_ok (fun x => P x \/ Q x) p b b2.
Proof.
  intros P Q p b b1 b2 (A & B & C) (D & E & F). split; [lra|]. split.
  - destruct E as [->|(E1 & E2 & E3)]; [destruct B as [->|(B1 & B2 & B3)]; [now left|right; split; [assumption|split; [assumption|now left]]]|].
    right. split; [assumption|]. split; [lra|now right].
  - intros x [H|H]; [apply C in H; lra|now apply F].
Qed.
Lemma step_iff : forall (P Q : vec -> Prop) p b b', (forall x, P x <-> Q x) -> step_ok P p b b' -> step_ok Q p b b'.
Proof.
  intros P Q p b b' H (A & B & C). split; [exact A|]. split; [|intros x Hx; apply C, H, Hx].
  destruct B as [B|(B1 & B2 & B3)]; [now left|right]. split; [exact B1|]. split; [exact B2|apply H, B3].
Qed.
(** a face which is not hit by the point standing for "no intersection" *)
Lemma try_step : forall p v s r n u w lu hu lv hv b, dot n n = 1 -> unit2 u w ->
  ~ (lu <= dot (vsub vzero s) u <= hu /\ lv <= dot (vsub vzero s) w <= hv) ->
  step_ok (fun x => on_ray p v x /\ dot x n = dot r n /\ dot v n <> 0 /\ lu <= dot (vsub x s) u <= hu /\ lv <= dot (vsub x s) w <= hv) p b
    (try_face p v s r n u w lu hu lv hv b).
Proof.
  intros p v s r n u w lu hu lv hv b Hn Hu N. destruct (try_spec p v s r n u w lu hu lv hv b Hn Hu) as (A & B & _ & C).
  split; [exact A|]. split.
  - destruct B as [B|(B1 & B2 & B3 & B4)]; [now left|]. right. split; [exact B1|]. split; [exact B2|].
    destruct B4 as [B4|(B4 & B5 & B6)]; [rewrite B4 in B3; contradiction|]. auto.
  - intros x (X1 & X2 & X3 & X4). apply C; assumption.
Qed.

Section Ladder.
Variables (gap : R) (a : zargs) (q : zpart) (i : Z) (sg : R).
Hypotheses (Hn : (1 <= za_n a)%Z) (Hg : 0 < gap) (Hl : 0 < q_len q) (Hd : 0 < q_d q) (Ht : 0 <= q_t q) (Hw : 0 <= q_w q) (Hs : sg = 1 \/ sg = -1).
Let l := layer_of a q.
Let az := azimuth a (modl (za_n a) i).
Let c := cos az.
Let s := sin az.
Lemma trig1 : c * c + s * s = 1. Proof. apply cs1. Qed.
Lemma dotB : forall x, dot x (mkVec c s 0) = along az x.
Proof. intros. unfold dot, along. cbn [vx vy vz]. fold c s. ring. Qed.
Lemma dotS : forall x, dot x (mkVec s (- c) 0) = - across az x.
Proof. intros. unfold dot, across. cbn [vx vy vz]. fold c s. ring. Qed.
Lemma dotZ : forall x, dot x eZ = vz x.
Proof. intros. unfold dot, eZ. cbn [vx vy vz]. ring. Qed.
Lemma u_BS : unit2 (mkVec c s 0) (mkVec s (- c) 0).
Proof. pose proof trig1. unfold unit2, dot. cbn [vx vy vz]. split; [|split]; lra. Qed.
Lemma u_SZ : unit2 (mkVec s (- c) 0) eZ.
Proof. pose proof trig1. unfold unit2, dot, eZ. cbn [vx vy vz]. split; [|split]; lra. Qed.
Lemma u_BZ : unit2 (mkVec c s 0) eZ.
Proof. pose proof trig1. unfold unit2, dot, eZ. cbn [vx vy vz]. split; [|split]; lra. Qed.
Let S0 := vscale (q_d q) (mkVec c s 0).
Lemma fromS0_B : forall x, dot (vsub x S0) (mkVec c s 0) = along az x - q_d q.
Proof.
  intros x. pose proof trig1 as T. unfold dot, S0, vsub, vscale, along. cbn [vx vy vz]. fold c s.
  transitivity (vx x * c + vy x * s - q_d q * (c * c + s * s)); [ring|rewrite T; ring].
Qed.
Lemma fromS0_S : forall x, dot (vsub x S0) (mkVec s (- c) 0) = - across az x.
Proof. intros x. unfold dot, S0, vsub, vscale, across. cbn [vx vy vz]. fold c s. ring. Qed.
Lemma fromS0_Z : forall x, dot (vsub x S0) eZ = vz x.
Proof. intros x. unfold dot, S0, vsub, vscale, eZ. cbn [vx vy vz]. ring. Qed.
Lemma zero_coords : along az vzero = 0 /\ across az vzero = 0 /\ vz vzero = 0.
Proof. unfold along, across, vzero. cbn. repeat split; ring. Qed.
Lemma scale_B : forall d, along az (vscale d (mkVec c s 0)) = d.
Proof. intros. pose proof trig1 as T. unfold along, vscale. cbn [vx vy vz]. fold c s. transitivity (d * (c * c + s * s)); [ring|rewrite T; ring]. Qed.
Lemma plus_S : forall e, across az (vadd S0 (vscale e (mkVec s (- c) 0))) = - e.
Proof.
  intros. pose proof trig1 as T. unfold across, S0, vadd, vscale. cbn [vx vy vz]. fold c s.
  transitivity (- (e * (c * c + s * s))); [ring|rewrite T; ring].
Qed.
Lemma plus_Z : forall e, vz (vadd S0 (vscale e eZ)) = e.
Proof. intros. unfold S0, vadd, vscale, eZ. cbn [vx vy vz]. ring. Qed.

Lemma cut_ladder_step : forall p v b,
  step_ok (fun x => on_ray p v x /\ crossed_side gap q az v sg x) p b (cut_ladder l p v (zS gap sg) (zE gap q sg) i b).
Proof.
  intros p v b. unfold cut_ladder. destruct (base_vec a q i Hn) as [EB ES]. unfold l. rewrite EB, ES. fold az. fold c s.
  destruct (part_layer a q gap) as (XL & XR & XE). rewrite XL, XR. unfold layer_of. cbn [zl_d zl_t]. fold S0.
  pose proof u_BS as U1. pose proof u_SZ as U2. pose proof u_BZ as U3. destruct zero_coords as (Z1 & Z2 & Z3).
  assert (Ub : dot (mkVec c s 0) (mkVec c s 0) = 1) by apply U1. assert (Us : dot (mkVec s (- c) 0) (mkVec s (- c) 0) = 1) by apply U1.
  assert (Uz : dot eZ eZ = 1) by apply U2.
  set (b1 := try_face _ _ _ _ _ _ _ _ _ _ _ b). assert (S1 := try_step p v S0 S0 _ _ _ (- q_w q / 2 - q_off q) (q_w q / 2 - q_off q) (zS gap sg) (zE gap q sg) b Ub U2). fold b1 in S1.
  set (b2 := try_face _ _ _ _ _ _ _ _ _ _ _ b1). assert (S2 := try_step p v S0 (vscale (q_d q + q_t q) (mkVec c s 0)) _ _ _ (- q_w q / 2 - q_off q) (q_w q / 2 - q_off q) (zS gap sg) (zE gap q sg) b1 Ub U2). fold b2 in S2.
  set (b3 := try_face _ _ _ _ _ _ _ _ _ _ _ b2). assert (S3 := try_step p v S0 (vadd S0 (vscale (- q_w q / 2 - q_off q) (mkVec s (- c) 0))) _ _ _ 0 (q_t q) (zS gap sg) (zE gap q sg) b2 Us U3). fold b3 in S3.
  set (b4 := try_face _ _ _ _ _ _ _ _ _ _ _ b3). assert (S4 := try_step p v S0 (vadd S0 (vscale (q_w q / 2 - q_off q) (mkVec s (- c) 0))) _ _ _ 0 (q_t q) (zS gap sg) (zE gap q sg) b3 Us U3). fold b4 in S4.
  set (b5 := try_face _ _ _ _ _ _ _ _ _ _ _ b4). assert (S5 := try_step p v S0 (vadd S0 (vscale (zE gap q sg) eZ)) _ _ _ 0 (q_t q) (- q_w q / 2 - q_off q) (q_w q / 2 - q_off q) b4 Uz U1). fold b5 in S5.
  set (b6 := try_face _ _ _ _ _ _ _ _ _ _ _ b5). assert (S6 := try_step p v S0 (vadd S0 (vscale (zS gap sg) eZ)) _ _ _ 0 (q_t q) (- q_w q / 2 - q_off q) (q_w q / 2 - q_off q) b5 Uz U1). fold b6 in S6.
  rewrite !fromS0_B, !fromS0_S, ?fromS0_Z, Z1, Z2, ?Z3 in *.
  assert (ZZ : ~ (zS gap sg <= 0 <= zE gap q sg)) by (unfold zS, zE; destruct Hs as [-> | ->]; lra).
  specialize (S1 ltac:(intros [_ Q]; exact (ZZ Q))). specialize (S2 ltac:(intros [_ Q]; exact (ZZ Q))).
  specialize (S3 ltac:(intros [_ Q]; exact (ZZ Q))). specialize (S4 ltac:(intros [_ Q]; exact (ZZ Q))).
  specialize (S5 ltac:(intros [Q _]; lra)). specialize (S6 ltac:(intros [Q _]; lra)).
  pose proof (step_seq _ _ _ _ _ _ (step_seq _ _ _ _ _ _ (step_seq _ _ _ _ _ _ (step_seq _ _ _ _ _ _ (step_seq _ _ _ _ _ _ S1 S2) S3) S4) S5) S6) as SS.
  revert SS. apply step_iff. intros x. clear S1 S2 S3 S4 S5 S6 Z1 Z2 Z3 ZZ.
  rewrite !fromS0_B, !fromS0_S, !fromS0_Z, !dotB, !dotS, !dotZ, !plus_S, !plus_Z, !scale_B.
  assert (E0 : along az S0 = q_d q) by apply scale_B. rewrite E0. unfold crossed_side, in_volume, zS, zE.
  set (X := along az x). set (Y := across az x). set (Zx := vz x).
  destruct Hs as [-> | ->].
  - split.
    + intros [[[[[H|H]|H]|H]|H]|H]; destruct H as (H1 & H2 & H3 & H4 & H5); (split; [exact H1|]);
      (assert (Rabs Zx = Zx) as -> by (apply Rabs_pos_eq; lra)); (split; [lra|]); (split; [lra|]).
      * left. split; [reflexivity|]. split; [exact H3|]. left. lra.
      * left. split; [reflexivity|]. split; [exact H3|]. right. lra.
      * right; left. split; [reflexivity|]. split; [lra|]. right. lra.
      * right; left. split; [reflexivity|]. split; [lra|]. left. lra.
      * right; right. split; [exact H3|]. right. lra.
      * right; right. split; [exact H3|]. left. lra.
    + intros (H1 & V & P0 & H). assert (EZ : Rabs Zx = Zx) by (apply Rabs_pos_eq; lra). rewrite EZ in *.
      destruct H as [(_ & H2 & [H3|H3])|[(_ & H2 & [H3|H3])|(H2 & [H3|H3])]].
      * left; left; left; left; left. repeat split; try assumption; lra.
      * left; left; left; left; right. repeat split; try assumption; lra.
      * left; left; right. repeat split; try assumption; lra.
      * left; left; left; right. repeat split; try assumption; lra.
      * right. repeat split; try assumption; lra.
      * left; right. repeat split; try assumption; lra.
  - split.
    + intros [[[[[H|H]|H]|H]|H]|H]; destruct H as (H1 & H2 & H3 & H4 & H5); try lra; (split; [exact H1|]);
      (assert (Rabs Zx = - Zx) as -> by (apply Rabs_left1; lra)); (split; [lra|]); (split; [lra|]).
      * right; right. split; [exact H3|]. right. lra.
      * right; right. split; [exact H3|]. left. lra.
    + intros (H1 & V & P0 & H). assert (EZ : Rabs Zx = - Zx) by (apply Rabs_left1; lra). rewrite EZ in *.
      destruct H as [(Q & _)|[(Q & _)|(H2 & [H3|H3])]]; [lra|lra|right|left; right]; repeat split; try assumption; lra.
Qed.
End Ladder.

(** ** the loops *)
Lemma cut_ladders_step : forall gap a q sg p v n i0 b, (0 < gap) -> 0 < q_len q -> part_ok q -> sg = 1 \/ sg = -1 ->
  (0 <= i0)%Z -> (i0 + Z.of_nat n <= za_n a)%Z ->
  step_ok (fun x => on_ray p v x /\ exists i, (i0 <= i < i0 + Z.of_nat n)%Z /\ crossed_side gap q (azimuth a (modl (za_n a) i)) v sg x) p b
    (cut_ladders (layer_of a q) p v (zS gap sg) (zE gap q sg) n i0 b).
Proof.
  intros gap a q sg p v n. induction n as [|n IH]; intros i0 b Hg Hl HQ Hs H0 HN; cbn [cut_ladders].
  - split; [lra|]. split; [now left|]. intros x (_ & i & Hi & _). lia.
  - destruct HQ as (Q1 & Q2 & Q3 & Q4).
    pose proof (cut_ladder_step gap a q i0 sg ltac:(lia) Hg Hl Q1 Q2 Q4 Hs p v b) as S1.
    pose proof (IH (i0 + 1)%Z (cut_ladder (layer_of a q) p v (zS gap sg) (zE gap q sg) i0 b) Hg Hl (conj Q1 (conj Q2 (conj Q3 Q4))) Hs ltac:(lia) ltac:(lia)) as S2.
    pose proof (step_seq _ _ _ _ _ _ S1 S2) as SS. revert SS. apply step_iff. intros x. split.
    + intros [(R & C)|(R & i & Hi & C)]; (split; [exact R|]); [exists i0|exists i]; (split; [lia|exact C]).
    + intros (R & i & Hi & C). destruct (Z.eq_dec i i0) as [->|]; [left; auto|right; split; [exact R|exists i; split; [lia|exact C]]].
Qed.
Lemma cut_layer_step : forall gap a q p v b, (0 < gap) -> 0 < q_len q -> part_ok q -> (1 <= za_n a)%Z ->
  step_ok (fun x => on_ray p v x /\ exists m, (0 <= m < za_n a)%Z /\ crossed gap q (azimuth a m) v x) p b (cut_layer gap p v b (layer_of a q)).
Proof.
  intros gap a q p v b Hg Hl HQ Hn. unfold cut_layer. cbn [zl_n layer_of]. fold (layer_of a q).
  destruct (part_layer a q gap) as (_ & _ & XE). rewrite XE.
  pose proof (cut_ladders_step gap a q 1 p v (Z.to_nat (za_n a)) 0 b Hg Hl HQ (or_introl eq_refl) ltac:(lia) ltac:(lia)) as S1.
  replace (zS gap 1) with (gap / 2) in S1 by (unfold zS; ring). replace (zE gap q 1) with (q_len q + gap / 2) in S1 by (unfold zE; ring).
  set (b1 := cut_ladders _ _ _ _ _ _ _ b) in *.
  pose proof (cut_ladders_step gap a q (-1) p v (Z.to_nat (za_n a)) 0 b1 Hg Hl HQ (or_intror eq_refl) ltac:(lia) ltac:(lia)) as S2.
  replace (zS gap (-1)) with (- (gap / 2)) in S2 by (unfold zS; ring). replace (zE gap q (-1)) with (- (q_len q + gap / 2)) in S2 by (unfold zE; ring).
  pose proof (step_seq _ _ _ _ _ _ S1 S2) as SS. revert SS. apply step_iff. intros x. split.
  - intros [(R & i & Hi & C)|(R & i & Hi & C)]; (split; [exact R|]); exists (modl (za_n a) i); (split; [apply modl_range; lia|]); apply crossed_sides; auto.
  - intros (R & m & Hm & C). apply crossed_sides in C; [|assumption]. pose proof (modl_range (za_n a) m Hm). pose proof (modl_modl (za_n a) m Hm) as MM.
    destruct C as [C|C]; [left|right]; (split; [exact R|]); exists (modl (za_n a) m); (split; [lia|rewrite MM; exact C]).
Qed.
Lemma cut_layers_step : forall gap sensitive p v h b, (0 < gap) ->
  (forall a, In a h -> (1 <= za_n a)%Z /\ part_ok (part_of a sensitive) /\ 0 < q_len (part_of a sensitive)) ->
  step_ok (fun x => on_ray p v x /\ exists a m, In a h /\ (0 <= m < za_n a)%Z /\ crossed gap (part_of a sensitive) (azimuth a m) v x) p b
    (fold_left (cut_layer gap p v) (map (fun a => layer_of a (part_of a sensitive)) h) b).
Proof.
  intros gap sensitive p v h. induction h as [|a h IH]; intros b Hg HH; cbn [map fold_left].
  - split; [lra|]. split; [now left|]. intros x (_ & a & m & [] & _).
  - destruct (HH a (or_introl eq_refl)) as (Hn & HQ & Hl).
    pose proof (cut_layer_step gap a (part_of a sensitive) p v b Hg Hl HQ Hn) as S1.
    pose proof (IH (cut_layer gap p v b (layer_of a (part_of a sensitive))) Hg (fun x Hx => HH x (or_intror Hx))) as S2.
    pose proof (step_seq _ _ _ _ _ _ S1 S2) as SS. revert SS. apply step_iff. intros x. split.
    + intros [(R & m & Hm & C)|(R & a' & m & Ha & Hm & C)]; (split; [exact R|]); [exists a, m|exists a', m]; (split; [cbn; auto|auto]).
    + intros (R & a' & m & [<-|Ha] & Hm & C); [left|right]; (split; [exact R|]); [exists m|exists a', m]; auto.
Qed.

Lemma first_crossing : forall type rIn rOut half gap rad h sensitive p v, 0 < gap ->
  (forall a, In a h -> (1 <= za_n a)%Z /\ part_ok (part_of a sensitive) /\ 0 < q_len (part_of a sensitive)) ->
  let r := intersectionLadder (zp_made type rIn rOut half gap rad h) p v sensitive in
  let meets := fun x => on_ray p v x /\ exists a m, In a h /\ (0 <= m < za_n a)%Z /\ crossed gap (part_of a sensitive) (azimuth a m) v x in
  (r = vzero /\ (forall x, meets x -> 99999 <= vdist p x)) \/
  (r <> vzero /\ meets r /\ vdist p r < 99999 /\ (forall x, meets x -> vdist p r <= vdist p x)).
Proof.
  intros type rIn rOut half gap rad h sensitive p v Hg HH r meets.
  destruct (made_parts type rIn rOut half gap rad h sensitive) as (E1 & E2 & E3).
  assert (Er : r = snd (fold_left (cut_layer gap p v) (map (fun a => layer_of a (part_of a sensitive)) h) (99999, vzero))).
  { unfold r, intersectionLadder. rewrite E1, E3. reflexivity. }
  clearbody r. subst r. set (b := fold_left _ _ _).
  destruct (cut_layers_step gap sensitive p v h (99999, vzero) Hg HH) as (A & B & C). fold b in A, B, C. cbn [fst] in A, B, C.
  destruct B as [B|(B1 & B2 & B3)].
  - left. split; [rewrite B; reflexivity|]. intros x Hx. apply C in Hx. rewrite B in Hx. cbn [fst] in Hx. exact Hx.
  - right. split.
    + intros E. rewrite E in B3. destruct B3 as (_ & a & m & Ha & _ & (V & _)). destruct V as (V & _). destruct (HH a Ha) as (_ & (Q & _) & _).
      unfold along, vzero in V. cbn [vx vy] in V. lra.
    + split; [exact B3|]. split; [lra|]. intros x Hx. apply C in Hx. lra.
Qed.
(** nothing at negative z is met by a line parallel to the xy plane *)
Lemma negative_half_missed : forall type rIn rOut half gap rad h sensitive p v, 0 < gap ->
  (forall a, In a h -> (1 <= za_n a)%Z /\ part_ok (part_of a sensitive) /\ 0 < q_len (part_of a sensitive)) ->
  vz p < 0 -> vz v = 0 -> intersectionLadder (zp_made type rIn rOut half gap rad h) p v sensitive = vzero.
Proof.
  intros type rIn rOut half gap rad h sensitive p v Hg HH Hp Hv.
  destruct (first_crossing type rIn rOut half gap rad h sensitive p v Hg HH) as [(E & _)|(_ & M & _)]; [exact E|exfalso].
  set (r := intersectionLadder _ _ _ _) in *. clearbody r. destruct M as ((t & Ht & _ & _ & Tz) & a & m & _ & _ & (_ & C)). rewrite Hv in Tz.
  destruct C as [(C & _)|[(C & _)|(C & _)]]; [lra|lra|contradiction].
Qed.
(** ** no gap: the point standing for "no intersection" is taken for a hit *)
Definition falls (p : vec) (b b' : best) : Prop := fst b' <= fst b /\ (b' = b \/ fst b' = vdist p (snd b')).
Lemma falls_trans : forall p a b c, falls p a b -> falls p b c -> falls p a c.
Proof. intros p a b c (A & B) (C & D). split; [lra|]. destruct D as [->|D]; [exact B|now right]. Qed.
Lemma try_falls : forall p v s r n u w lu hu lv hv b, falls p b (try_face p v s r n u w lu hu lv hv b).
Proof.
  intros. unfold falls, try_face. destruct (isEqualV _ _); [|split; [lra|now left]].
  destruct (Rltb_spec (vlen (vsub (planeLineIntersection r n p v) p)) (fst b)); cbn [fst snd]; [|split; [lra|now left]].
  rewrite vlen_vdist in *. split; [lra|now right].
Qed.
Lemma cut_falls : forall l p v a b0 i b, falls p b (cut_ladder l p v a b0 i b).
Proof. intros. unfold cut_ladder. do 5 (eapply falls_trans; [|apply try_falls]). apply try_falls. Qed.
Lemma cuts_fall : forall l p v a b0 n i b, falls p b (cut_ladders l p v a b0 n i b).
Proof. intros l p v a b0 n. induction n; intros; cbn [cut_ladders]; [split; [lra|now left]|]. eapply falls_trans; [apply cut_falls|apply IHn]. Qed.
Lemma layer_falls : forall gap p v b l, falls p b (cut_layer gap p v b l).
Proof. intros. unfold cut_layer. eapply falls_trans; [apply cuts_fall|apply cuts_fall]. Qed.
Lemma layers_fall : forall gap p v ls b, falls p b (fold_left (cut_layer gap p v) ls b).
Proof. intros gap p v ls. induction ls; intros; cbn [fold_left]; [split; [lra|now left]|]. eapply falls_trans; [apply layer_falls|apply IHls]. Qed.
Lemma along_pos : forall x, vdist x x = 0.
Proof. intros. unfold vdist. replace (_ + _ + _) with 0 by ring. apply sqrt_0. Qed.
Lemma fake_hit : forall a q v i b, (1 <= za_n a)%Z -> 0 <= q_len q -> 0 < q_d q -> covers_normal q ->
  along (azimuth a (modl (za_n a) i)) v <= 0 ->
  fst (cut_ladder (layer_of a q) vzero v (0 / 2) (x_zEnd 0 (layer_of a q)) i b) <= 0.
Proof.
  intros a q v i b Hn Hl Hd Hc Hv. unfold cut_ladder. do 5 (match goal with |- fst (try_face ?p ?v ?s ?r ?n ?u ?w ?lu ?hu ?lv ?hv ?b) <= 0 =>
    destruct (try_falls p v s r n u w lu hu lv hv b) as [F _]; refine (Rle_trans _ _ _ F _); clear F end).
  destruct (base_vec a q i Hn) as [EB ES]. rewrite EB, ES. set (az := azimuth a (modl (za_n a) i)) in *.
  destruct (part_layer a q 0) as (XL & XR & XE). rewrite XL, XR, XE. unfold layer_of. cbn [zl_d zl_t].
  set (B := mkVec (cos az) (sin az) 0). set (S := mkVec (sin az) (- cos az) 0). pose proof (cs1 az) as T.
  assert (U : unit2 S eZ) by (unfold unit2, dot, S, eZ; cbn [vx vy vz]; split; [|split]; lra).
  assert (UB1 : dot B B = 1) by (unfold dot, B; cbn [vx vy vz]; lra).
  assert (E : planeLineIntersection (vscale (q_d q) B) B vzero v = vzero).
  { destruct (pli_spec (vscale (q_d q) B) B vzero v UB1) as [E|((t & Ht & Ex & Ey & Ez) & E2 & E3)]; [exact E|exfalso].
    assert (D : dot (vscale (q_d q) B) B = q_d q).
    { unfold dot, B, vscale. cbn [vx vy vz]. transitivity (q_d q * (cos az * cos az + sin az * sin az)); [ring|rewrite T; ring]. }
    rewrite D in E2. unfold dot in E2. rewrite Ex, Ey, Ez in E2. unfold vzero, B in E2. cbn [vx vy vz] in E2. unfold along in Hv.
    assert (K : t * (vx v * cos az + vy v * sin az) = q_d q) by (rewrite <- E2; ring).
    assert (0 <= t * - (vx v * cos az + vy v * sin az)) by (apply Rmult_le_pos; lra). lra. }
  destruct (try_spec vzero v (vscale (q_d q) B) (vscale (q_d q) B) B S eZ (- q_w q / 2 - q_off q) (q_w q / 2 - q_off q) (0 / 2) (q_len q + 0 / 2) b UB1 U) as (_ & _ & F & _).
  rewrite E in F. rewrite along_pos in F. apply F.
  assert (D1 : dot (vsub vzero (vscale (q_d q) B)) S = 0) by (unfold dot, vsub, vzero, vscale, B, S; cbn [vx vy vz]; ring).
  assert (D2 : dot (vsub vzero (vscale (q_d q) B)) eZ = 0) by (unfold dot, vsub, vzero, vscale, B, eZ; cbn [vx vy vz]; ring).
  rewrite D1, D2. unfold covers_normal in Hc. unfold Rabs in Hc. destruct (Rcase_abs (q_off q)); lra.
Qed.
Lemma fake_hits : forall a q v n i0 i b, (1 <= za_n a)%Z -> 0 <= q_len q -> 0 < q_d q -> covers_normal q ->
  along (azimuth a (modl (za_n a) i)) v <= 0 -> (i0 <= i < i0 + Z.of_nat n)%Z ->
  fst (cut_ladders (layer_of a q) vzero v (0 / 2) (x_zEnd 0 (layer_of a q)) n i0 b) <= 0.
Proof.
  intros a q v n. induction n as [|n IH]; intros i0 i b H1 H2 H3 H4 H5 H6; [lia|]. cbn [cut_ladders].
  destruct (Z.eq_dec i i0) as [->|].
  - destruct (cuts_fall (layer_of a q) vzero v (0 / 2) (x_zEnd 0 (layer_of a q)) n (i0 + 1)
      (cut_ladder (layer_of a q) vzero v (0 / 2) (x_zEnd 0 (layer_of a q)) i0 b)) as [F _].
    eapply Rle_trans; [exact F|]. now apply fake_hit.
  - apply (IH _ i); try assumption. lia.
Qed.
Lemma from_origin_no_gap : forall type rIn rOut half rad h sensitive v a m, In a h -> (0 <= m < za_n a)%Z ->
  0 <= q_len (part_of a sensitive) -> 0 < q_d (part_of a sensitive) -> covers_normal (part_of a sensitive) ->
  along (azimuth a m) v <= 0 ->
  intersectionLadder (zp_made type rIn rOut half 0 rad h) vzero v sensitive = vzero.
Proof.
  intros type rIn rOut half rad h sensitive v a m Ha Hm H1 H2 H3 H4. unfold intersectionLadder.
  destruct (made_parts type rIn rOut half 0 rad h sensitive) as (E1 & E2 & E3). rewrite E1, E3.
  set (b := fold_left _ _ _).
  assert (F : fst b <= 0).
  { apply in_split in Ha. destruct Ha as (h1 & h2 & ->). unfold b. rewrite map_app, fold_left_app. cbn [map fold_left].
    set (b0 := fold_left _ (map _ h1) _).
    destruct (layers_fall 0 vzero v (map (fun a => layer_of a (part_of a sensitive)) h2) (cut_layer 0 vzero v b0 (layer_of a (part_of a sensitive)))) as [F _].
    eapply Rle_trans; [exact F|]. unfold cut_layer.
    match goal with |- fst (cut_ladders ?l ?p ?v ?x ?y ?n ?i ?b1) <= 0 => destruct (cuts_fall l p v x y n i b1) as [F2 _]; eapply Rle_trans; [exact F2|] end.
    pose proof (modl_range (za_n a) m Hm).
    apply (fake_hits a (part_of a sensitive) v _ _ (modl (za_n a) m)); try assumption; [lia|rewrite modl_modl by assumption; assumption|cbn [layer_of zl_n]; lia]. }
  destruct (layers_fall 0 vzero v (map (fun a => layer_of a (part_of a sensitive)) h) (99999, vzero)) as [_ [G|G]]; fold b in G.
  - rewrite G. reflexivity.
  - rewrite G in F. unfold vdist in F. set (x := snd b) in *. clearbody x.
    destruct x as [x y z]. cbn in F. replace ((x - 0) * (x - 0) + (y - 0) * (y - 0) + (z - 0) * (z - 0)) with (x * x + y * y + z * z) in F by ring.
    pose proof (Rle_0_sqr x). pose proof (Rle_0_sqr y). pose proof (Rle_0_sqr z). unfold Rsqr in *.
    assert (Q : sqrt (x * x + y * y + z * z) = 0) by (pose proof (sqrt_pos (x * x + y * y + z * z)); lra).
    apply sqrt_eq_0 in Q; [|lra].
    assert (x * x = 0) by lra. assert (y * y = 0) by lra. assert (z * z = 0) by lra.
    assert (x = 0) by (apply Rsqr_0_uniq; assumption). assert (y = 0) by (apply Rsqr_0_uniq; assumption). assert (z = 0) by (apply Rsqr_0_uniq; assumption).
    subst. reflexivity.
Qed.
