From Coq Require Import ZArith List String Bool Reals Lra Lia.
From Verif Require Import Base RBase Trig VecModel VecProofs SurfModel SurfSpec.
Import ListNotations.
Open Scope R_scope.

(** ** Coordinate systems *)
Lemma by_cofactor : forall D x y z, D * D = 1 -> x * D = z -> z = y -> x = D * y.
Proof. intros D x y z H E <-. rewrite <- E. transitivity (x * (D * D)); [rewrite H; ring|ring]. Qed.
(** The columns of an orthonormal matrix are orthonormal too. *)
Lemma transpose_orthonormal : forall m, orthonormal m -> orthonormal (rot_inverse m).
Proof.
  intros [[a b c] [d e f] [g h i]] H. unfold orthonormal, vdot in *. cbn in *. destruct H as [H1 [H2 [H3 [H4 [H5 H6]]]]].
  (* cofactors *)
  set (D := a * (e * i - f * h) - b * (d * i - f * g) + c * (d * h - e * g)).
  assert (DD : D * D = 1).
  { assert (G : D * D = (a*a+b*b+c*c) * ((d*d+e*e+f*f) * (g*g+h*h+i*i) - (d*g+e*h+f*i) * (d*g+e*h+f*i))
      - (a*d+b*e+c*f) * ((a*d+b*e+c*f) * (g*g+h*h+i*i) - (d*g+e*h+f*i) * (a*g+b*h+c*i))
      + (a*g+b*h+c*i) * ((a*d+b*e+c*f) * (d*g+e*h+f*i) - (d*d+e*e+f*f) * (a*g+b*h+c*i))) by (unfold D; ring).
    rewrite G, H1, H2, H3, H4, H5, H6. ring. }
  (* each entry is D times its cofactor *)
  assert (Ea : a = D * (e * i - f * h)).
  { eapply by_cofactor with (z := (a*a+b*b+c*c) * (e * i - f * h) + (a*d+b*e+c*f) * (c * h - b * i) + (a*g+b*h+c*i) * (b * f - c * e)); [exact DD|unfold D; ring|]. rewrite H1, H4, H5. ring. }
  assert (Eb : b = D * (f * g - d * i)).
  { eapply by_cofactor with (z := (a*a+b*b+c*c) * (f * g - d * i) + (a*d+b*e+c*f) * (a * i - c * g) + (a*g+b*h+c*i) * (c * d - a * f)); [exact DD|unfold D; ring|]. rewrite H1, H4, H5. ring. }
  assert (Ec : c = D * (d * h - e * g)).
  { eapply by_cofactor with (z := (a*a+b*b+c*c) * (d * h - e * g) + (a*d+b*e+c*f) * (b * g - a * h) + (a*g+b*h+c*i) * (a * e - b * d)); [exact DD|unfold D; ring|]. rewrite H1, H4, H5. ring. }
  assert (Ed : d = D * (c * h - b * i)).
  { eapply by_cofactor with (z := (a*d+b*e+c*f) * (e * i - f * h) + (d*d+e*e+f*f) * (c * h - b * i) + (d*g+e*h+f*i) * (b * f - c * e)); [exact DD|unfold D; ring|]. rewrite H4, H2, H6. ring. }
  assert (Ee : e = D * (a * i - c * g)).
  { eapply by_cofactor with (z := (a*d+b*e+c*f) * (f * g - d * i) + (d*d+e*e+f*f) * (a * i - c * g) + (d*g+e*h+f*i) * (c * d - a * f)); [exact DD|unfold D; ring|]. rewrite H4, H2, H6. ring. }
  assert (Ef : f = D * (b * g - a * h)).
  { eapply by_cofactor with (z := (a*d+b*e+c*f) * (d * h - e * g) + (d*d+e*e+f*f) * (b * g - a * h) + (d*g+e*h+f*i) * (a * e - b * d)); [exact DD|unfold D; ring|]. rewrite H4, H2, H6. ring. }
  assert (Eg : g = D * (b * f - c * e)).
  { eapply by_cofactor with (z := (a*g+b*h+c*i) * (e * i - f * h) + (d*g+e*h+f*i) * (c * h - b * i) + (g*g+h*h+i*i) * (b * f - c * e)); [exact DD|unfold D; ring|]. rewrite H5, H6, H3. ring. }
  assert (Eh : h = D * (c * d - a * f)).
  { eapply by_cofactor with (z := (a*g+b*h+c*i) * (f * g - d * i) + (d*g+e*h+f*i) * (a * i - c * g) + (g*g+h*h+i*i) * (c * d - a * f)); [exact DD|unfold D; ring|]. rewrite H5, H6, H3. ring. }
  assert (Ei : i = D * (a * e - b * d)).
  { eapply by_cofactor with (z := (a*g+b*h+c*i) * (d * h - e * g) + (d*g+e*h+f*i) * (b * g - a * h) + (g*g+h*h+i*i) * (a * e - b * d)); [exact DD|unfold D; ring|]. rewrite H5, H6, H3. ring. }
  (* inner products of columns *)
  assert (Q1 : D * (a * (e * i - f * h) + d * (c * h - b * i) + g * (b * f - c * e)) = 1) by (rewrite <- DD; unfold D; ring).
  assert (Q2 : D * (b * (f * g - d * i) + e * (a * i - c * g) + h * (c * d - a * f)) = 1) by (rewrite <- DD; unfold D; ring).
  assert (Q3 : D * (c * (d * h - e * g) + f * (b * g - a * h) + i * (a * e - b * d)) = 1) by (rewrite <- DD; unfold D; ring).
  clearbody D.
  split; [transitivity (a * (D * (e * i - f * h)) + d * (D * (c * h - b * i)) + g * (D * (b * f - c * e))); [congruence|rewrite <- Q1; ring]|].
  split; [transitivity (b * (D * (f * g - d * i)) + e * (D * (a * i - c * g)) + h * (D * (c * d - a * f))); [congruence|rewrite <- Q2; ring]|].
  split; [transitivity (c * (D * (d * h - e * g)) + f * (D * (b * g - a * h)) + i * (D * (a * e - b * d))); [congruence|rewrite <- Q3; ring]|].
  split; [transitivity (a * (D * (f * g - d * i)) + d * (D * (a * i - c * g)) + g * (D * (c * d - a * f))); [congruence|ring]|].
  split; [transitivity (a * (D * (d * h - e * g)) + d * (D * (b * g - a * h)) + g * (D * (a * e - b * d))); [congruence|ring]|].
  transitivity (b * (D * (d * h - e * g)) + e * (D * (b * g - a * h)) + h * (D * (a * e - b * d))); [congruence|ring].
Qed.

Lemma apply_inverse : forall m v, orthonormal m -> rot_apply m (rot_apply (rot_inverse m) v) = v.
Proof.
  intros [[a b c] [d e f] [g h i]] [x y z] H. unfold orthonormal, rot_apply, vdot in *. cbn in *. destruct H as [H1 [H2 [H3 [H4 [H5 H6]]]]].
  apply vec_eq; cbn.
  - transitivity ((a*a+b*b+c*c) * x + (a*d+b*e+c*f) * y + (a*g+b*h+c*i) * z); [ring|rewrite H1, H4, H5; ring].
  - transitivity ((a*d+b*e+c*f) * x + (d*d+e*e+f*f) * y + (d*g+e*h+f*i) * z); [ring|rewrite H2, H4, H6; ring].
  - transitivity ((a*g+b*h+c*i) * x + (d*g+e*h+f*i) * y + (g*g+h*h+i*i) * z); [ring|rewrite H3, H5, H6; ring].
Qed.
Lemma inverse_inverse : forall m, rot_inverse (rot_inverse m) = m.
Proof. intros [[a b c] [d e f] [g h i]]. reflexivity. Qed.
Lemma inverse_apply : forall m v, orthonormal m -> rot_apply (rot_inverse m) (rot_apply m v) = v.
Proof. intros m v H. rewrite <- (inverse_inverse m) at 2. apply apply_inverse. now apply transpose_orthonormal. Qed.

Lemma vsub_add : forall a b, vadd a (vsub b a) = b.
Proof. intros [] []; unfold vadd, vsub; cbn. apply vec_eq; cbn; ring. Qed.
Lemma vadd_sub : forall a b, vsub (vadd a b) a = b.
Proof. intros [] []; unfold vadd, vsub; cbn. apply vec_eq; cbn; ring. Qed.

Lemma csys_inverse : forall T m, orthonormal m -> forall p,
  getGlobalPoint (new_csys T m) (getLocalPoint (new_csys T m) p) = p /\
  getLocalPoint (new_csys T m) (getGlobalPoint (new_csys T m) p) = p.
Proof.
  intros T m H p. unfold getGlobalPoint, getLocalPoint; cbn [cs_T cs_R cs_Rinv new_csys]. split.
  - rewrite apply_inverse by auto. apply vsub_add.
  - rewrite vadd_sub. now apply inverse_apply.
Qed.
Lemma apply_sub : forall m a b, rot_apply m (vsub a b) = vsub (rot_apply m a) (rot_apply m b).
Proof. intros [[] [] []] [] []. unfold rot_apply, vsub, vdot; cbn. apply vec_eq; cbn; ring. Qed.
Lemma apply_norm : forall m v, orthonormal m -> vr2 (rot_apply m v) = vr2 v.
Proof.
  intros m v H. apply transpose_orthonormal in H. destruct m as [[a b c] [d e f] [g h i]], v as [x y z].
  unfold orthonormal, rot_apply, vdot, vr2 in *. cbn in *. destruct H as [H1 [H2 [H3 [H4 [H5 H6]]]]].
  transitivity ((a*a+d*d+g*g) * (x*x) + (b*b+e*e+h*h) * (y*y) + (c*c+f*f+i*i) * (z*z)
     + 2 * (a*b+d*e+g*h) * (x*y) + 2 * (a*c+d*f+g*i) * (x*z) + 2 * (b*c+e*f+h*i) * (y*z)); [ring|].
  rewrite H1, H2, H3, H4, H5, H6. ring.
Qed.
Lemma csys_isometry : forall T m, orthonormal m -> forall p q,
  vdist (getGlobalPoint (new_csys T m) p) (getGlobalPoint (new_csys T m) q) = vdist p q /\
  vdist (getLocalPoint (new_csys T m) p) (getLocalPoint (new_csys T m) q) = vdist p q.
Proof.
  intros T m H p q. unfold vdist, vr. unfold getGlobalPoint, getLocalPoint; cbn [cs_T cs_R cs_Rinv new_csys].
  split; f_equal.
  - replace (vsub (vadd T (rot_apply m p)) (vadd T (rot_apply m q))) with (rot_apply m (vsub p q)); [exact (apply_norm m (vsub p q) H)|].
    rewrite apply_sub. unfold vsub, vadd; apply vec_eq; cbn; ring.
  - rewrite <- apply_sub. replace (vsub (vsub p T) (vsub q T)) with (vsub p q) by (unfold vsub; apply vec_eq; cbn; ring).
    exact (apply_norm (rot_inverse m) (vsub p q) (transpose_orthonormal m H)).
Qed.
Lemma csys_origin : forall T m, getGlobalPoint (new_csys T m) vzero = T /\ getOrigin (new_csys T m) = T /\
  getLocalXAxis (new_csys T m) = vsub (getGlobalPoint (new_csys T m) (mkVec 1 0 0)) T /\
  getLocalYAxis (new_csys T m) = vsub (getGlobalPoint (new_csys T m) (mkVec 0 1 0)) T /\
  getLocalZAxis (new_csys T m) = vsub (getGlobalPoint (new_csys T m) (mkVec 0 0 1)) T.
Proof.
  intros [] [[] [] []]. unfold getGlobalPoint, getOrigin, getLocalXAxis, getLocalYAxis, getLocalZAxis, rot_apply, vdot, vadd, vsub; cbn.
  split; [apply vec_eq; cbn; ring|]. split; [reflexivity|]. repeat split; apply vec_eq; cbn; ring.
Qed.

Lemma rotZ_orthonormal : forall a, orthonormal (rotZ a).
Proof.
  intros a. pose proof (sin2_cos2 a) as E. unfold Rsqr in E. unfold orthonormal, vdot; cbn.
  repeat split; lra.
Qed.

(** ** Boundaries *)
Lemma unturn : forall alpha l, let l' := rot_apply (rotZ (- alpha)) l in
  vx l' = vx l * cos alpha + vy l * sin alpha /\ vy l' = - vx l * sin alpha + vy l * cos alpha.
Proof. intros. unfold l', rot_apply, vdot; cbn. rewrite cos_neg, sin_neg. split; ring. Qed.
Lemma turned_iff : forall alpha u v a b, (u, v) = turned alpha a b <-> a = u * cos alpha + v * sin alpha /\ b = - u * sin alpha + v * cos alpha.
Proof.
  intros. pose proof (sin2_cos2 alpha) as E. unfold Rsqr in E. unfold turned. split.
  - intros X. inversion X; subst; clear X. split.
    + transitivity (a * (sin alpha * sin alpha + cos alpha * cos alpha)); [rewrite E; ring|ring].
    + transitivity (b * (sin alpha * sin alpha + cos alpha * cos alpha)); [rewrite E; ring|ring].
  - intros [-> ->]. f_equal.
    + transitivity (u * (sin alpha * sin alpha + cos alpha * cos alpha)); [rewrite E; ring|ring].
    + transitivity (v * (sin alpha * sin alpha + cos alpha * cos alpha)); [rewrite E; ring|ring].
Qed.
Lemma abs_bound : forall x b, Rltb b (Rabs x) = false <-> - b <= x <= b.
Proof.
  intros. rewrite Rltb_false. split; intros H.
  - unfold Rabs in H. destruct (Rcase_abs x); lra.
  - apply Rabs_le. lra.
Qed.
Lemma rect_exact : forall w l d alpha p,
  isInBoundary (Rectangle w l d alpha) p = true <-> Rabs (vz p) <= d /\ in_rectangle w l alpha (vx p) (vy p).
Proof.
  intros. cbn. unfold rect_isInBoundary. destruct (unturn alpha p) as [X Y]. cbn zeta. rewrite X, Y. split.
  - intros H. destruct (Rltb d (Rabs (vz p))) eqn:E1; [discriminate|].
    destruct (Rltb (w / 2) _) eqn:E2; [discriminate|]. destruct (Rltb (l / 2) _) eqn:E3; [discriminate|].
    split; [now apply Rltb_false|]. apply abs_bound in E2, E3.
    exists (vx p * cos alpha + vy p * sin alpha), (- vx p * sin alpha + vy p * cos alpha). split; [exact E2|]. split; [exact E3|].
    now apply turned_iff.
  - intros [Hz [a [b [Ha [Hb Ht]]]]]. apply turned_iff in Ht. destruct Ht as [<- <-].
    apply Rltb_false in Hz. rewrite Hz. apply abs_bound in Ha, Hb. now rewrite Ha, Hb.
Qed.
Lemma trap_hull : forall bottom top h a b, 0 <= bottom -> 0 <= top -> 0 < h ->
  (- (h / 2) <= b <= h / 2 /\ (let w := (bottom + top) / 2 + b * (top - bottom) / h in - (w / 2) <= a <= w / 2)) <->
  exists p q r s, 0 <= p /\ 0 <= q /\ 0 <= r /\ 0 <= s /\ p + q + r + s = 1 /\
    a = p * (- (bottom / 2)) + q * (bottom / 2) + r * (top / 2) + s * (- (top / 2)) /\
    b = p * (- (h / 2)) + q * (- (h / 2)) + r * (h / 2) + s * (h / 2).
Proof.
  intros bottom top h a b Hb Ht Hh. cbn zeta. split.
  - intros [B A]. set (t := (b + h / 2) / h). assert (T : 0 <= t <= 1).
    { unfold t. split; [apply Rmult_le_pos; [lra|left; now apply Rinv_0_lt_compat]|].
      apply Rmult_le_reg_r with h; auto. field_simplify; lra. }
    assert (Eb : b = t * h - h / 2) by (unfold t; field; lra).
    set (W := (1 - t) * bottom + t * top). assert (EW : (bottom + top) / 2 + b * (top - bottom) / h = W) by (unfold W; rewrite Eb; field; lra).
    rewrite EW in A. clearbody t.
    assert (0 <= W) by (unfold W; assert (0 <= (1 - t) * bottom) by (apply Rmult_le_pos; lra); assert (0 <= t * top) by (apply Rmult_le_pos; lra); lra).
    assert (exists s, -1 <= s <= 1 /\ a = s * (W / 2)).
    { destruct (Req_dec W 0) as [E|E].
      - exists 0. lra.
      - exists (2 * a / W). split; [|field; auto]. split; (apply Rmult_le_reg_r with W; [lra|]); replace (2 * a / W * W) with (2 * a) by (field; auto); lra. }
    destruct H0 as [s [Hs Ea]].
    exists ((1 - t) * ((1 - s) / 2)), ((1 - t) * ((1 + s) / 2)), (t * ((1 + s) / 2)), (t * ((1 - s) / 2)).
    do 4 (split; [apply Rmult_le_pos; lra|]). split; [field|]. split; [rewrite Ea; unfold W; field|rewrite Eb; field].
  - intros [p [q [r [s [Hp [Hq [Hr [Hs [S [Ea Eb]]]]]]]]]].
    assert (Eb2 : b = (r + s - 1 / 2) * h) by (rewrite Eb; nra). split; [rewrite Eb2; nra|].
    assert (EW : (bottom + top) / 2 + b * (top - bottom) / h = (p + q) * bottom + (r + s) * top).
    { rewrite Eb2. replace (p + q) with (1 - r - s) by lra. field. lra. }
    rewrite EW. assert (0 <= p * bottom) by (now apply Rmult_le_pos). assert (0 <= q * bottom) by (now apply Rmult_le_pos).
    assert (0 <= r * top) by (now apply Rmult_le_pos). assert (0 <= s * top) by (now apply Rmult_le_pos). lra.
Qed.
Lemma trap_exact : forall bottom top h d alpha p, 0 <= bottom -> 0 <= top -> 0 < h ->
  (isInBoundary (Trapezoid bottom top h d alpha) p = true <-> Rabs (vz p) <= d /\ in_trapezoid bottom top h alpha (vx p) (vy p)).
Proof.
  intros bottom top h d alpha p Hb Ht Hh. cbn. unfold trap_isInBoundary. destruct (unturn alpha p) as [X Y]. cbn zeta. rewrite X, Y.
  assert (E0 : Reqb h 0 = false) by (apply Reqb_false; lra). rewrite E0.
  set (a := vx p * cos alpha + vy p * sin alpha). set (b := - vx p * sin alpha + vy p * cos alpha).
  assert (TR : (vx p, vy p) = turned alpha a b) by (apply turned_iff; auto).
  assert (IN : in_trapezoid bottom top h alpha (vx p) (vy p) <->
     (- (h / 2) <= b <= h / 2 /\ (let w := (bottom + top) / 2 + b * (top - bottom) / h in - (w / 2) <= a <= w / 2))).
  { rewrite trap_hull by auto. split.
    - intros [pp [q [r [s [a' [b' [H1 [H2 [H3 [H4 [H5 [Ea [Eb T]]]]]]]]]]]]]. apply turned_iff in T. destruct T as [Xa Xb].
      exists pp, q, r, s. do 5 (split; [assumption|]). split; unfold a, b; congruence.
    - intros [pp [q [r [s [H1 [H2 [H3 [H4 [H5 [Ea Eb]]]]]]]]]]. exists pp, q, r, s, a, b. do 7 (split; [assumption|]). exact TR. }
  rewrite IN. cbn zeta. split.
  - intros H. destruct (Rltb d (Rabs (vz p))) eqn:E1; [discriminate|].
    destruct (Rltb (h / 2) _) eqn:E2; [discriminate|]. destruct (Rltb (_ / 2) (Rabs a)) eqn:E3; [discriminate|].
    split; [now apply Rltb_false|]. apply abs_bound in E2, E3. auto.
  - intros [Hz [B A]]. apply Rltb_false in Hz. rewrite Hz. apply abs_bound in A, B. now rewrite B, A.
Qed.
(** A trapezoid of height 0 accepts points arbitrarily far away. *)
Lemma trap_flat : forall bottom top d alpha t, 0 <= d ->
  isInBoundary (Trapezoid bottom top 0 d alpha) (mkVec (t * cos alpha) (t * sin alpha) 0) = true.
Proof.
  intros bottom top d alpha t Hd. cbn. unfold trap_isInBoundary. cbn [vz].
  destruct (unturn alpha (mkVec (t * cos alpha) (t * sin alpha) 0)) as [X Y]. cbn zeta. rewrite Y. cbn [vx vy].
  rewrite Rabs_R0. assert (E : Rltb d 0 = false) by (now apply Rltb_false). rewrite E.
  replace (- (t * cos alpha) * sin alpha + t * sin alpha * cos alpha) with 0 by ring. rewrite Rabs_R0.
  assert (E2 : Rltb (0 / 2) 0 = false) by (apply Rltb_false; lra). rewrite E2.
  assert (E3 : Reqb 0 0 = true) by (now apply Reqb_true). now rewrite E3.
Qed.
Lemma surface_tests : forall id T m b, orthonormal m ->
  (forall p, isLocalInBoundary (mkSurface id (Some (new_csys T m)) (Some b)) p = isInBoundary b p) /\
  (forall p, isGlobalInBoundary (mkSurface id (Some (new_csys T m)) (Some b)) (getGlobalPoint (new_csys T m) p) = Ok (isInBoundary b p)) /\
  (forall g, isGlobalInBoundary (mkSurface id (Some (new_csys T m)) (Some b)) g = Ok (isInBoundary b (getLocalPoint (new_csys T m) g))) /\
  (forall p, isLocalInBoundary (mkSurface id (Some (new_csys T m)) None) p = true) /\
  (forall g, isGlobalInBoundary (mkSurface id (Some (new_csys T m)) None) g = Ok true).
Proof.
  intros. unfold isLocalInBoundary, isGlobalInBoundary; cbn [s_boundary s_csys].
  split; [reflexivity|]. split; [|auto]. intros p. destruct (csys_inverse T m H p) as [_ ->]. reflexivity.
Qed.

(** ** The store *)
Lemma find_app : forall m id k a, find_id (m ++ [(k, a)]) id = match find_id m id with Some x => Some x | None => if Z.eqb k id then Some a else None end.
Proof. induction m as [|[k' a'] t IH]; intros; cbn; auto. destruct (Z.eqb k' id); auto. Qed.

(** the longest prefix that can be added *)
Lemma add_all_spec : forall l s, ~ In None l ->
  (exists s', add_all s l = SOk s' tt /\ st_filled s' = st_filled s /\ st_filler s' = st_filler s /\
     (forall id, find_id (st_map s') id = match find_id (st_map s) id with Some a => Some a | None => first_for l id end) /\
     distinct l /\ (forall a id, In (Some (a, id)) l -> find_id (st_map s) id = None)) \/
  (exists pre a id post s' e, l = pre ++ Some (a, id) :: post /\ add_all s l = SThrow s' e /\
     st_filled s' = st_filled s /\ st_filler s' = st_filler s /\
     (forall id, find_id (st_map s') id = match find_id (st_map s) id with Some a => Some a | None => first_for pre id end) /\
     distinct pre /\ (forall a id, In (Some (a, id)) pre -> find_id (st_map s) id = None) /\
     find_id (st_map s') id <> None).
Proof.
  induction l as [|[[a id]|] t IH]; intros s NN.
  - left. exists s. cbn. do 3 (split; [reflexivity|]). split; [intros k; now destruct (find_id (st_map s) k)|]. split; [constructor|]. intros ? ? [].
  - cbn [add_all addMeasurementSurface]. destruct (find_id (st_map s) id) as [x|] eqn:F.
    + right. exists [], a, id, t, s, (EGear "addMeasurementSurface: already in the map"%string). cbn.
      do 4 (split; [reflexivity|]). split; [intros k; now destruct (find_id (st_map s) k)|]. split; [constructor|]. split; [intros ? ? []|congruence].
    + set (s1 := mkStore (st_map s ++ [(id, a)]) (st_filled s) (st_filler s)).
      assert (F1 : forall k, find_id (st_map s1) k = match find_id (st_map s) k with Some x => Some x | None => if Z.eqb id k then Some a else None end) by (intros; apply find_app).
      assert (Fid : find_id (st_map s1) id = Some a) by (rewrite F1, F, Z.eqb_refl; auto).
      destruct (IH s1) as [[s' [E [A [B [C [D G]]]]]] | [pre [a' [id' [post [s' [e [L [E [A [B [C [D [G H]]]]]]]]]]]]]].
      { intros X; apply NN; now right. }
      * left. exists s'. split; [exact E|]. split; [exact A|]. split; [exact B|]. split; [|split].
        -- intros k. rewrite C, F1. cbn [first_for]. destruct (find_id (st_map s) k); auto. destruct (Z.eqb id k); auto.
        -- unfold distinct in *. cbn. constructor; auto. intros X. apply in_map_iff in X. destruct X as [[[a2 k2]|] [Y Z]]; cbn in Y; [|discriminate].
           inversion Y; subst k2. apply G in Z. congruence.
        -- intros a2 k2 [X|X]; [inversion X; subst; auto|]. apply G in X. rewrite F1 in X. destruct (find_id (st_map s) k2); congruence.
      * right. exists (Some (a, id) :: pre), a', id', post, s', e. split; [cbn; now rewrite L|]. split; [exact E|]. split; [exact A|]. split; [exact B|].
        split; [|split; [|split]].
        -- intros k. rewrite C, F1. cbn [first_for]. destruct (find_id (st_map s) k); auto. destruct (Z.eqb id k); auto.
        -- unfold distinct in *. cbn. constructor; auto. intros X. apply in_map_iff in X. destruct X as [[[a2 k2]|] [Y Z]]; cbn in Y; [|discriminate].
           inversion Y; subst k2. apply G in Z. congruence.
        -- intros a2 k2 [X|X]; [inversion X; subst; auto|]. apply G in X. rewrite F1 in X. destruct (find_id (st_map s) k2); congruence.
        -- exact H.
  - exfalso. apply NN. now left.
Qed.

Lemma get_none : forall s id, (exists e, GetMeasurementSurface s id = Throw e) <-> find_id (st_map s) id = None.
Proof. intros. unfold GetMeasurementSurface. destruct (find_id (st_map s) id); split; intros H; try discriminate; eauto. destruct H; discriminate. Qed.
Lemma get_some : forall s id a, GetMeasurementSurface s id = Ok a <-> find_id (st_map s) id = Some a.
Proof. intros. unfold GetMeasurementSurface. destruct (find_id (st_map s) id); split; intros H; try discriminate; congruence. Qed.


Lemma answers_find : forall s tab, answers s tab <-> forall id, find_id (st_map s) id = tab id.
Proof.
  intros s tab. split; intros H id; specialize (H id).
  - destruct (tab id); [now apply get_some|now apply get_none].
  - destruct (tab id); [now apply get_some|now apply get_none].
Qed.
Lemma prefix_dup_clash : forall pre a id post, (distinct (pre ++ Some (a, id) :: post)) -> first_for pre id = None.
Proof.
  induction pre as [|[[b k]|] t IH]; intros a id post D; cbn; auto.
  - unfold distinct in D. cbn in D. inversion D as [|x y N D']; subst. destruct (Z.eqb_spec k id) as [->|_].
    + exfalso. apply N. apply in_map_iff. exists (Some (a, id)). split; [reflexivity|]. apply in_or_app. right. now left.
    + eapply IH. exact D'.
  - unfold distinct in D. cbn in D. inversion D; subst. eapply IH. eassumption.
Qed.

Lemma fill_exact : forall s tab f, answers s tab -> no_null f -> isFilled s = false ->
  (distinct (fl_surfaces f) /\ (forall a id, In (Some (a, id)) (fl_surfaces f) -> tab id = None) ->
     exists s', FillStore s f = SOk s' tt /\ isFilled s' = true /\ getFillerName s' = Ok (fl_name f) /\
       answers s' (both tab (first_for (fl_surfaces f)))) /\
  (~ (distinct (fl_surfaces f) /\ (forall a id, In (Some (a, id)) (fl_surfaces f) -> tab id = None)) ->
     exists pre a id post s' e, fl_surfaces f = pre ++ Some (a, id) :: post /\
       FillStore s f = SThrow s' e /\ isFilled s' = false /\ (exists e', getFillerName s' = Throw e') /\
       answers s' (both tab (first_for pre)) /\ both tab (first_for pre) id <> None).
Proof.
  intros s tab f HA NN HF. unfold isFilled in HF. rewrite answers_find in HA. unfold FillStore. rewrite HF.
  destruct (add_all_spec (fl_surfaces f) (mkStore (st_map s) false (fl_name f)) NN)
    as [[s' [E [A [B [C [D G]]]]]] | [pre [a' [id' [post [s' [e [L [E [A [B [C [D [G H]]]]]]]]]]]]]]; cbn [st_map st_filled st_filler] in *; rewrite E.
  - split.
    + intros _. eexists. split; [reflexivity|]. split; [reflexivity|]. split; [unfold getFillerName; cbn; now rewrite B|].
      apply answers_find. intros id. cbn. rewrite C. unfold both. now rewrite HA.
    + intros N. exfalso. apply N. split; [exact D|]. intros a id X. rewrite <- HA. now apply (G a id).
  - split.
    + intros [HD HN]. exfalso. rewrite C, HA in H. rewrite L in HD.
      rewrite (prefix_dup_clash _ _ _ _ HD) in H. rewrite (HN a' id') in H; [auto|]. rewrite L. apply in_or_app. right. now left.
    + intros _. exists pre, a', id', post, s', e. split; [exact L|]. split; [reflexivity|]. split; [exact A|].
      split; [unfold getFillerName; rewrite A; cbn; eauto|]. split.
      * apply answers_find. intros id. rewrite C. unfold both. now rewrite HA.
      * rewrite C in H. unfold both. now rewrite <- HA.
Qed.
Lemma fill_once : forall s f, isFilled s = true -> exists e, FillStore s f = SThrow s e.
Proof. intros s f H. unfold FillStore. unfold isFilled in H. rewrite H. eauto. Qed.

Lemma fill_keeps : forall s f s', no_null f -> (FillStore s f = SOk s' tt \/ exists e, FillStore s f = SThrow s' e) ->
  forall id a, GetMeasurementSurface s id = Ok a -> GetMeasurementSurface s' id = Ok a.
Proof.
  intros s f s' NN H id a G. destruct (isFilled s) eqn:F.
  - destruct (fill_once s f F) as [e E]. rewrite E in H. destruct H as [H|[e' H]]; inversion H; subst; auto.
  - apply get_some in G. apply get_some. unfold FillStore in H. unfold isFilled in F. rewrite F in H.
    destruct (add_all_spec (fl_surfaces f) (mkStore (st_map s) false (fl_name f)) NN)
      as [[s2 [E [A [B [C _]]]]] | [pre [a' [id' [post [s2 [e [L [E [A [B [C _]]]]]]]]]]]]; cbn [st_map st_filled st_filler] in *; rewrite E in H;
      destruct H as [H|[e' H]]; inversion H; subst; cbn; rewrite C, G; reflexivity.
Qed.
Lemma run_keeps : forall h s s', (forall f, In f h -> no_null f) -> fill_run s h = Some s' ->
  forall id a, GetMeasurementSurface s id = Ok a -> GetMeasurementSurface s' id = Ok a.
Proof.
  induction h as [|f t IH]; intros s s' NN H id a G; cbn in H; [inversion H; subst; auto|].
  destruct (FillStore s f) as [s1 []|s1 e|] eqn:E; [| |discriminate].
  - eapply IH; [intros; apply NN; now right|exact H|]. eapply fill_keeps; [apply NN; now left|left; exact E|exact G].
  - eapply IH; [intros; apply NN; now right|exact H|]. eapply fill_keeps; [apply NN; now left|right; eauto|exact G].
Qed.
Lemma run_total : forall h s, (forall f, In f h -> no_null f) -> exists s', fill_run s h = Some s'.
Proof.
  induction h as [|f t IH]; intros s NN; cbn; [eauto|].
  assert (FillStore s f <> SUB).
  { unfold FillStore. destruct (st_filled s); [discriminate|].
    destruct (add_all_spec (fl_surfaces f) (mkStore (st_map s) false (fl_name f)) ltac:(apply NN; now left))
      as [[s2 [E _]] | [pre [a' [id' [post [s2 [e [L [E _]]]]]]]]]; rewrite E; discriminate. }
  destruct (FillStore s f); [apply IH; intros; apply NN; now right|apply IH; intros; apply NN; now right|congruence].
Qed.

(** A filler that failed once never succeeds. *)
Lemma fill_no_retry : forall s f s' e, no_null f -> FillStore s f = SThrow s' e ->
  forall h s2, (forall g, In g h -> no_null g) -> fill_run s' h = Some s2 ->
  exists s3 e', FillStore s2 f = SThrow s3 e'.
Proof.
  intros s f s' e NN E h s2 NH HR. destruct (isFilled s2) eqn:F2.
  { destruct (fill_once s2 f F2) as [e' X]. eauto. }
  assert (CL : (exists a id, In (Some (a, id)) (fl_surfaces f) /\ exists x, GetMeasurementSurface s' id = Ok x) \/ isFilled s = true).
  { destruct (isFilled s) eqn:F; [auto|left]. unfold FillStore in E. unfold isFilled in F. rewrite F in E.
    destruct (add_all_spec (fl_surfaces f) (mkStore (st_map s) false (fl_name f)) NN)
      as [[sx [Ex _]] | [pre [a' [id' [post [sx [ex [L [Ex [A [B [C [D [G H]]]]]]]]]]]]]]; cbn [st_map] in *; rewrite Ex in E; inversion E; subst.
    exists a', id'. split; [rewrite L; apply in_or_app; right; now left|].
    destruct (find_id (st_map s') id') as [x|] eqn:Fx; [|congruence]. exists x. now apply get_some. }
  destruct CL as [[a [id [HI [x HG]]]]|HF].
  - pose proof (run_keeps _ _ _ NH HR _ _ HG) as HG2.
    destruct (fill_exact s2 (fun id => find_id (st_map s2) id) f) as [_ Z]; [now apply answers_find|exact NN|exact F2|].
    destruct Z as [pre [a' [id' [post [s3 [e' [_ [Ef _]]]]]]]].
    { intros [_ K]. specialize (K _ _ HI). apply get_some in HG2. congruence. }
    eauto.
  - destruct (fill_once s f HF) as [e' X]. rewrite X in E. inversion E; subst s' e'.
    assert (Hk : forall h s0 s9, isFilled s0 = true -> fill_run s0 h = Some s9 -> isFilled s9 = true).
    { clear. induction h as [|f t IH]; intros s0 s9 F H; cbn in H; [inversion H; subst; auto|].
      destruct (fill_once s0 f F) as [e E]. rewrite E in H. eapply IH; eauto. }
    rewrite (Hk _ _ _ HF HR) in F2. discriminate.
Qed.
(** The name and the contents are those of the one successful fill; nothing changes after it. *)
Lemma fill_final : forall s f s' h s2, FillStore s f = SOk s' tt -> fill_run s' h = Some s2 -> s2 = s'.
Proof.
  intros s f s' h s2 E. assert (F : isFilled s' = true).
  { unfold FillStore in E. destruct (st_filled s); [discriminate|]. destruct (add_all _ _); inversion E; reflexivity. }
  clear E. revert h. induction h as [|g t IH]; cbn; intros H; [congruence|].
  destruct (fill_once s' g F) as [e X]. rewrite X in H. auto.
Qed.
(** A failed fill leaves its surfaces behind: another filler can then succeed, and the store holds
    surfaces of both under the second one's name. *)
Lemma fill_mixed : exists f g s1 e s2, no_null f /\ no_null g /\ FillStore new_store f = SThrow s1 e /\ FillStore s1 g = SOk s2 tt /\
  getFillerName s2 = Ok (fl_name g) /\ fl_name g <> fl_name f /\
  exists a, In (Some (a, 1%Z)) (fl_surfaces f) /\ ~ In (Some (a, 1%Z)) (fl_surfaces g) /\ GetMeasurementSurface s2 1 = Ok a.
Proof.
  exists (mkFiller "A" [Some (100, 1); Some (101, 1)]%Z), (mkFiller "B" [Some (200, 2)]%Z).
  eexists; eexists; eexists. split; [unfold no_null; cbn; intros X; repeat destruct X as [X|X]; (discriminate || contradiction)|]. split; [unfold no_null; cbn; intros X; repeat destruct X as [X|X]; (discriminate || contradiction)|].
  split; [cbn; reflexivity|]. split; [cbn; reflexivity|]. split; [reflexivity|]. split; [discriminate|].
  exists 100%Z. split; [now left|]. split; [cbn; intros X; repeat destruct X as [X|X]; (discriminate || contradiction)|reflexivity].
Qed.
(** The destructor deletes nothing. *)
Lemma store_leaks : forall s, store_deletes s = [].
Proof.
  intros s. unfold store_deletes. generalize (st_map s). induction l as [|[k a] t IH]; cbn; auto.
Qed.
Lemma fill_null : forall s n l1 l2, isFilled s = false -> (exists s', add_all (mkStore (st_map s) false n) l1 = SOk s' tt) ->
  FillStore s (mkFiller n (l1 ++ None :: l2)) = SUB.
Proof.
  intros s n l1 l2 F [s' E]. unfold FillStore. unfold isFilled in F. rewrite F. cbn [fl_name fl_surfaces].
  replace (add_all (mkStore (st_map s) false n) (l1 ++ None :: l2)) with (@SUB store unit); [reflexivity|].
  symmetry. revert E. generalize (mkStore (st_map s) false n). induction l1 as [|[[a id]|] t IH]; intros s0 E; cbn in *; [reflexivity| |discriminate].
  destruct (find_id (st_map s0) id); [discriminate|]. now apply IH.
Qed.
Lemma store_copy : forall s id, GetMeasurementSurface (copy_store s) id = GetMeasurementSurface s id /\
  isFilled (copy_store s) = isFilled s /\ getFillerName (copy_store s) = getFillerName s.
Proof. intros []; auto. Qed.
