(** Geometry of planar ladders and proofs about isPointInLadder. *)
From Coq Require Import ZArith List Bool Reals Lra Lia.
From Flocq Require Import Core.Raux.
From Verif Require Import Base RBase Trig VecModel RectSpec DiskSpec TpcModuleProofs ZpModel ZpSpec.
Import ListNotations.
Open Scope R_scope.

(** ** Local coordinates *)
(** the point with coordinates X along (c,s), Y along (s,-c), Z along sz*z *)
Definition loc (c s sz X Y Z : R) : vec := mkVec (X * c + Y * s) (X * s - Y * c) (sz * Z).
Definition lX (c s : R) (p : vec) : R := vx p * c + vy p * s.
Definition lY (c s : R) (p : vec) : R := vx p * s - vy p * c.
Definition lZ (sz : R) (p : vec) : R := sz * vz p.
Lemma c_sqr : forall c s, c * c + s * s = 1 -> c * c = 1 - s * s. Proof. intros. lra. Qed.
Ltac poly := match goal with H : ?c * ?c + ?s * ?s = 1, Hz : ?z * ?z = 1 |- _ =>
  let C := fresh in pose proof (c_sqr c s H) as C; ring [C Hz] end.
Lemma sz2 : forall sz, sz = 1 \/ sz = -1 -> sz * sz = 1. Proof. intros sz [-> | ->]; ring. Qed.
Lemma loc_self : forall c s sz p, c * c + s * s = 1 -> sz * sz = 1 -> p = loc c s sz (lX c s p) (lY c s p) (lZ sz p).
Proof.
  intros c s sz [x y z] H Hz. unfold loc, lX, lY, lZ. cbn [vx vy vz].
  f_equal; poly.
Qed.
Lemma loc_coord : forall c s sz X Y Z, c * c + s * s = 1 -> sz * sz = 1 ->
  lX c s (loc c s sz X Y Z) = X /\ lY c s (loc c s sz X Y Z) = Y /\ lZ sz (loc c s sz X Y Z) = Z.
Proof. intros c s sz X Y Z H Hz. unfold loc, lX, lY, lZ. cbn [vx vy vz]. split; [|split]; poly. Qed.
Lemma vec_eq : forall a b, vx a = vx b -> vy a = vy b -> vz a = vz b -> a = b.
Proof. intros [] [] A B C. cbn in *. congruence. Qed.
Lemma vlen_loc : forall c s sz X Y Z p, c * c + s * s = 1 -> sz * sz = 1 ->
  vx (vsub (loc c s sz X Y Z) p) * vx (vsub (loc c s sz X Y Z) p) + vy (vsub (loc c s sz X Y Z) p) * vy (vsub (loc c s sz X Y Z) p) +
  vz (vsub (loc c s sz X Y Z) p) * vz (vsub (loc c s sz X Y Z) p)
  = (X - lX c s p) * (X - lX c s p) + (Y - lY c s p) * (Y - lY c s p) + (Z - lZ sz p) * (Z - lZ sz p).
Proof.
  intros c s sz X Y Z p H Hz. rewrite (loc_self c s sz p H Hz) at 1 2 3 4 5 6.
  set (X0 := lX c s p). set (Y0 := lY c s p). set (Z0 := lZ sz p). clearbody X0 Y0 Z0.
  unfold vsub, loc. cbn [vx vy vz]. poly.
Qed.

Lemma clamp_if : forall lo hi v, lo <= hi -> (if Rltb hi v then hi else if Rltb v lo then lo else v) = clampR lo hi v.
Proof.
  intros lo hi v H. unfold clampR. destruct (Rltb_spec hi v); [rewrite Rmin_left, Rmax_right by lra; reflexivity|].
  rewrite Rmin_right by lra. destruct (Rltb_spec v lo); [rewrite Rmax_left by lra; reflexivity|rewrite Rmax_right by lra; reflexivity].
Qed.
Lemma clamp_id : forall lo hi v, lo <= v <= hi -> clampR lo hi v = v.
Proof. intros. unfold clampR. rewrite Rmin_right, Rmax_right by lra. reflexivity. Qed.
Lemma clamp_in : forall lo hi v, lo <= hi -> lo <= clampR lo hi v <= hi.
Proof. intros lo hi v H. unfold clampR. split; [apply Rmax_l|]. apply Rmax_lub; [exact H|apply Rmin_l]. Qed.
Lemma clamp_near : forall lo hi v w, lo <= w <= hi -> (clampR lo hi v - v) * (clampR lo hi v - v) <= (w - v) * (w - v).
Proof.
  intros lo hi v w H. destruct (Rle_lt_dec v lo).
  - assert (E : clampR lo hi v = lo) by (unfold clampR; rewrite Rmin_right, Rmax_left by lra; reflexivity). rewrite E. nra.
  - destruct (Rle_lt_dec v hi).
    + rewrite clamp_id by lra. replace ((v - v) * (v - v)) with 0 by ring. pose proof (Rle_0_sqr (w - v)). unfold Rsqr in *. lra.
    + assert (E : clampR lo hi v = hi) by (unfold clampR; rewrite Rmin_left, Rmax_right by lra; reflexivity). rewrite E. nra.
Qed.

(** correctToBorderPoint on a vector given by its components in the plane *)
Lemma isEqual_refl : forall a, isEqual a a = true.
Proof. intros. unfold isEqual. destruct (Reqb_spec a a); [reflexivity|contradiction]. Qed.
Lemma ctb : forall w u v a b lu hu lv hv,
  vx w * vx u + vy w * vy u + vz w * vz u = a -> vx w * vx v + vy w * vy v + vz w * vz v = b ->
  w = vadd (vscale a u) (vscale b v) -> lu <= hu -> lv <= hv ->
  correctToBorderPoint w u v lu hu lv hv = vadd (vscale (clampR lu hu a) u) (vscale (clampR lv hv b) v).
Proof.
  intros w u v a b lu hu lv hv Ha Hb Hw H1 H2. unfold correctToBorderPoint. rewrite Ha, Hb, !clamp_if by assumption.
  destruct (Rltb_spec a lu); cbn [orb negb]; [reflexivity|].
  destruct (Rltb_spec hu a); cbn [orb negb]; [reflexivity|].
  destruct (Rltb_spec b lv); cbn [orb negb]; [reflexivity|].
  destruct (Rltb_spec hv b); cbn [orb negb]; [reflexivity|].
  rewrite !clamp_id by lra. exact Hw.
Qed.

Lemma not_null : forall a b c, a * a + b * b + c * c = 1 -> (Reqb a 0 && Reqb b 0 && Reqb c 0)%bool = false.
Proof.
  intros a b c H. destruct (Reqb_spec a 0) as [->|]; [|reflexivity]. destruct (Reqb_spec b 0) as [->|]; [|reflexivity].
  destruct (Reqb_spec c 0) as [->|]; [|reflexivity]. lra.
Qed.
Ltac dtp_tac :=
  unfold distanceToPlane; rewrite not_null by (cbn [vx vy vz]; lra);
  match goal with |- (if negb (isEqual ?e 0) then _ else _) = _ =>
    replace e with 0 by (cbn [vx vy vz]; ring) end; rewrite isEqual_refl; cbn [negb].

(** the three orientations in which distanceToPlane is called *)
Lemma dtp_base0 : forall c s sz X Y Z X0 Y0 Z0 lu hu lv hv, c * c + s * s = 1 -> sz * sz = 1 -> lu <= hu -> lv <= hv ->
  distanceToPlane (loc c s sz X Y Z) (loc c s sz X0 Y0 Z0) (mkVec c s 0) (mkVec s (- c) 0) (mkVec 0 0 sz) lu hu lv hv =
  vsub (loc c s sz X0 (Y0 + clampR lu hu (Y - Y0)) (Z0 + clampR lv hv (Z - Z0))) (loc c s sz X Y Z).
Proof.
  intros c s sz X Y Z X0 Y0 Z0 lu hu lv hv Hcs Hz H1 H2. dtp_tac.
  rewrite (ctb _ _ _ (Y - Y0) (Z - Z0)); [|unfold loc; cbn [vx vy vz]; poly|unfold loc; cbn [vx vy vz]; poly| |exact H1|exact H2].
  - set (u := clampR _ _ _). set (v := clampR _ _ _). apply vec_eq; unfold vadd, vscale, vsub, loc; cbn [vx vy vz]; ring.
  - apply vec_eq; unfold vadd, vscale, vsub, loc; cbn [vx vy vz]; poly.
Qed.
Lemma dtp_base : forall c s sz p r X0 Y0 Z0 lu hu lv hv, c * c + s * s = 1 -> sz * sz = 1 -> lu <= hu -> lv <= hv ->
  r = loc c s sz X0 Y0 Z0 ->
  distanceToPlane p r (mkVec c s 0) (mkVec s (- c) 0) (mkVec 0 0 sz) lu hu lv hv =
  vsub (loc c s sz X0 (Y0 + clampR lu hu (lY c s p - Y0)) (Z0 + clampR lv hv (lZ sz p - Z0))) p.
Proof.
  intros c s sz p r X0 Y0 Z0 lu hu lv hv Hcs Hz H1 H2 ->.
  pose proof (dtp_base0 c s sz (lX c s p) (lY c s p) (lZ sz p) X0 Y0 Z0 lu hu lv hv Hcs Hz H1 H2) as E.
  rewrite <- (loc_self c s sz p Hcs Hz) in E. exact E.
Qed.
Lemma dtp_side0 : forall c s sz X Y Z X0 Y0 Z0 lu hu lv hv, c * c + s * s = 1 -> sz * sz = 1 -> lu <= hu -> lv <= hv ->
  distanceToPlane (loc c s sz X Y Z) (loc c s sz X0 Y0 Z0) (mkVec s (- c) 0) (mkVec c s 0) (mkVec 0 0 sz) lu hu lv hv =
  vsub (loc c s sz (X0 + clampR lu hu (X - X0)) Y0 (Z0 + clampR lv hv (Z - Z0))) (loc c s sz X Y Z).
Proof.
  intros c s sz X Y Z X0 Y0 Z0 lu hu lv hv Hcs Hz H1 H2. dtp_tac.
  rewrite (ctb _ _ _ (X - X0) (Z - Z0)); [|unfold loc; cbn [vx vy vz]; poly|unfold loc; cbn [vx vy vz]; poly| |exact H1|exact H2].
  - set (u := clampR _ _ _). set (v := clampR _ _ _). apply vec_eq; unfold vadd, vscale, vsub, loc; cbn [vx vy vz]; ring.
  - apply vec_eq; unfold vadd, vscale, vsub, loc; cbn [vx vy vz]; poly.
Qed.
Lemma dtp_side : forall c s sz p r X0 Y0 Z0 lu hu lv hv, c * c + s * s = 1 -> sz * sz = 1 -> lu <= hu -> lv <= hv ->
  r = loc c s sz X0 Y0 Z0 ->
  distanceToPlane p r (mkVec s (- c) 0) (mkVec c s 0) (mkVec 0 0 sz) lu hu lv hv =
  vsub (loc c s sz (X0 + clampR lu hu (lX c s p - X0)) Y0 (Z0 + clampR lv hv (lZ sz p - Z0))) p.
Proof.
  intros c s sz p r X0 Y0 Z0 lu hu lv hv Hcs Hz H1 H2 ->.
  pose proof (dtp_side0 c s sz (lX c s p) (lY c s p) (lZ sz p) X0 Y0 Z0 lu hu lv hv Hcs Hz H1 H2) as E.
  rewrite <- (loc_self c s sz p Hcs Hz) in E. exact E.
Qed.
Lemma dtp_z0 : forall c s sz X Y Z X0 Y0 Z0 lu hu lv hv, c * c + s * s = 1 -> sz * sz = 1 -> lu <= hu -> lv <= hv ->
  distanceToPlane (loc c s sz X Y Z) (loc c s sz X0 Y0 Z0) (mkVec 0 0 sz) (mkVec c s 0) (mkVec s (- c) 0) lu hu lv hv =
  vsub (loc c s sz (X0 + clampR lu hu (X - X0)) (Y0 + clampR lv hv (Y - Y0)) Z0) (loc c s sz X Y Z).
Proof.
  intros c s sz X Y Z X0 Y0 Z0 lu hu lv hv Hcs Hz H1 H2. dtp_tac.
  rewrite (ctb _ _ _ (X - X0) (Y - Y0)); [|unfold loc; cbn [vx vy vz]; poly|unfold loc; cbn [vx vy vz]; poly| |exact H1|exact H2].
  - set (u := clampR _ _ _). set (v := clampR _ _ _). apply vec_eq; unfold vadd, vscale, vsub, loc; cbn [vx vy vz]; ring.
  - apply vec_eq; unfold vadd, vscale, vsub, loc; cbn [vx vy vz]; poly.
Qed.
Lemma dtp_z : forall c s sz p r X0 Y0 Z0 lu hu lv hv, c * c + s * s = 1 -> sz * sz = 1 -> lu <= hu -> lv <= hv ->
  r = loc c s sz X0 Y0 Z0 ->
  distanceToPlane p r (mkVec 0 0 sz) (mkVec c s 0) (mkVec s (- c) 0) lu hu lv hv =
  vsub (loc c s sz (X0 + clampR lu hu (lX c s p - X0)) (Y0 + clampR lv hv (lY c s p - Y0)) Z0) p.
Proof.
  intros c s sz p r X0 Y0 Z0 lu hu lv hv Hcs Hz H1 H2 ->.
  pose proof (dtp_z0 c s sz (lX c s p) (lY c s p) (lZ sz p) X0 Y0 Z0 lu hu lv hv Hcs Hz H1 H2) as E.
  rewrite <- (loc_self c s sz p Hcs Hz) in E. exact E.
Qed.

(** ** Angles *)
Lemma same_cos : forall a b, same_angle a b -> cos a = cos b.
Proof. intros a b H. pose proof (same_point 1 a b H) as E. injection E as E _. lra. Qed.
Lemma same_sin : forall a b, same_angle a b -> sin a = sin b.
Proof. intros a b H. pose proof (same_point 1 a b H) as E. injection E as _ E. lra. Qed.
Lemma correct_same : forall f, same_angle (correctPhiRange f) f.
Proof. intros. unfold correctPhiRange. rcase; [apply same_minus|]. rcase; [apply same_plus|apply same_refl]. Qed.
(** the module number reported for ladder i *)
Definition modl (n i : Z) : Z := if (i =? 0)%Z then 0%Z else (n - i)%Z.
Lemma modl_range : forall n i, (0 <= i < n)%Z -> (0 <= modl n i < n)%Z.
Proof. intros n i H. unfold modl. destruct (Z.eqb_spec i 0); lia. Qed.
Lemma modl_modl : forall n i, (0 <= i < n)%Z -> modl n (modl n i) = i.
Proof. intros n i H. unfold modl. destruct (Z.eqb_spec i 0) as [->|]; [reflexivity|]. destruct (Z.eqb_spec (n - i) 0); lia. Qed.
Lemma azimuth_modl : forall a i, (1 <= za_n a)%Z ->
  same_angle (za_phi0 a - IZR i * (2 * PI / IZR (za_n a))) (azimuth a (modl (za_n a) i)).
Proof.
  intros a i H. unfold azimuth, modl. assert (IZR (za_n a) <> 0) by (apply not_0_IZR; lia).
  destruct (Z.eqb_spec i 0) as [->|].
  - exists 0%Z. simpl. lra.
  - exists (-1)%Z. rewrite minus_IZR. field. assumption.
Qed.
Lemma ladder_same : forall a q i, (1 <= za_n a)%Z -> same_angle (ladderPhi (layer_of a q) i) (PI / 2 - azimuth a (modl (za_n a) i)).
Proof.
  intros a q i H. unfold ladderPhi. eapply same_trans; [apply correct_same|]. unfold deltaPhi, layer_of. cbn [zl_phi zl_n].
  destruct (azimuth_modl a i H) as [k E]. exists (- k)%Z. rewrite opp_IZR. lra.
Qed.
Lemma ladder_trig : forall a q i, (1 <= za_n a)%Z ->
  sin (ladderPhi (layer_of a q) i) = cos (azimuth a (modl (za_n a) i)) /\ cos (ladderPhi (layer_of a q) i) = sin (azimuth a (modl (za_n a) i)).
Proof.
  intros a q i H. pose proof (ladder_same a q i H) as S. rewrite (same_sin _ _ S), (same_cos _ _ S), sin_shift, cos_shift. auto.
Qed.
Lemma cs1 : forall a, cos a * cos a + sin a * sin a = 1.
Proof. intros. pose proof (sin2_cos2 a). unfold Rsqr in *. lra. Qed.

(** the angle of a point *)
Lemma getPhiPoint_ok : forall p, ~ below_origin p -> getPhiPoint p = Some (atan2 (vx p) (vy p)).
Proof.
  intros [x y z] H. unfold below_origin in H. unfold getPhiPoint, atan2. cbn [vx vy] in *.
  pose proof PI_RGT_0. pose proof (atan_bound (x / y)).
  destruct (Reqb_spec x 0) as [->|Nx]; cbn [negb andb].
  - assert (0 < y) by lra. destruct (Reqb_spec y 0); [lra|]. destruct (Rltb_spec 0 y); [|lra]. f_equal. unfold correctPhiRange. rcase; [lra|]. rcase; lra.
  - destruct (Rltb_spec y 0) as [Hy|Hy].
    + destruct (Rltb_spec 0 y); [lra|]. f_equal. unfold correctPhiRange.
      assert (Hi : / y < 0) by (now apply Rinv_lt_0_compat).
      destruct (Rleb_spec 0 x).
      * assert (atan (x / y) < 0). { rewrite <- atan_0. apply atan_increasing. unfold Rdiv. assert (0 < x) by lra. nra. } rcase; [lra|]. rcase; [lra|]. reflexivity.
      * assert (0 < atan (x / y)). { rewrite <- atan_0. apply atan_increasing. unfold Rdiv. nra. } rcase; [|lra]. lra.
    + destruct (Reqb_spec y 0) as [->|Ny].
      * destruct (Rltb_spec 0 0); [lra|]. destruct (Rltb_spec 0 x).
        -- f_equal. unfold correctPhiRange. rcase; [lra|]. rcase; lra.
        -- destruct (Rltb_spec x 0); [|lra]. f_equal. unfold correctPhiRange. rcase; [lra|]. rcase; lra.
      * destruct (Rltb_spec 0 y); [|lra]. f_equal. unfold correctPhiRange. rcase; [lra|]. rcase; lra.
Qed.
Lemma getPhiPoint_below : forall p, vx p = 0 -> vy p < 0 -> getPhiPoint p = Some 0.
Proof.
  intros [x y z] H1 H2. cbn in *. subst. unfold getPhiPoint. cbn. destruct (Reqb_spec 0 0); [|lra]. cbn. destruct (Reqb_spec y 0); [lra|].
  replace (0 / y) with 0 by (field; lra). rewrite atan_0. unfold correctPhiRange. pose proof PI_RGT_0. rcase; [lra|]. rcase; [lra|]. reflexivity.
Qed.
Lemma getPhiPoint_polar : forall p, ~ below_origin p -> exists f, getPhiPoint p = Some f /\ - PI < f <= PI /\
  exists rho, 0 < rho /\ vx p = rho * sin f /\ vy p = rho * cos f.
Proof.
  intros p H. exists (atan2 (vx p) (vy p)). split; [now apply getPhiPoint_ok|]. split; [apply atan2_bounds|].
  assert (N : vy p <> 0 \/ vx p <> 0). { unfold below_origin in H. destruct (Req_dec (vx p) 0); [left|right]; lra. }
  exists (sqrt (vy p * vy p + vx p * vx p)). split; [now apply sqrt_pos2|]. split; symmetry; [now apply atan2_sin|now apply atan2_cos].
Qed.

(** the range test *)
Lemma range_iff : forall f a b, - PI < f <= PI -> - 3 * PI < a -> b <= 3 * PI -> a <= b -> b - a < 2 * PI ->
  (isInRange (Some f) (correctPhiRange a) (correctPhiRange b) = true <-> exists k : Z, a <= f + 2 * PI * IZR k <= b).
Proof.
  intros f a b Hf Ha Hb Hab Hw. pose proof PI_RGT_0 as P. unfold isInRange.
  assert (K : (exists k : Z, a <= f + 2 * PI * IZR k <= b) <-> (a <= f - 2 * PI <= b \/ a <= f <= b \/ a <= f + 2 * PI <= b)).
  { split.
    - intros [k Hk]. assert (k = -1 \/ k = 0 \/ k = 1)%Z as [-> | [-> | ->]].
      { assert (- 2 < k < 2)%Z; [|lia]. split; apply lt_IZR; nra. }
      + left. lra. + right; left. lra. + right; right. lra.
    - intros [H|[H|H]]; [exists (-1)%Z|exists 0%Z|exists 1%Z]; lra. }
  rewrite K. unfold correctPhiRange.
  destruct (Rltb_spec PI a), (Rltb_spec PI b), (Rleb_spec a (- PI)), (Rleb_spec b (- PI)); try lra;
    rewrite !orb_true_iff, !andb_true_iff, !Rleb_true, !Rltb_true; split; intros Q;
    first [lra | destruct Q as [[Q|Q]|Q]; lra | destruct Q as [Q|[Q|Q]]; lra | idtac].
Qed.
