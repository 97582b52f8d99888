(** Proofs about a single TPC module: what the setters leave behind, coordinate transforms. *)
From Coq Require Import ZArith List String Bool Reals Lra Lia.
From Flocq Require Import Core.Raux.
From Verif Require Import Base RBase Trig DiskBase DiskSpec DiskProofs TpcModuleModel TpcModel TpcSpec.
From Verif Require RectSpec RectProofs3 RectProofs4.
Import ListNotations.
Open Scope R_scope.

(** ** what the setters leave behind *)
(** everything except the extents *)
Definition core (m : module) :=
  (m_layout m, (m_off0 m, m_off1 m), (m_offc0 m, m_offc1 m), m_z m, (m_angle m, m_cos m, m_sin m),
   (m_type m, m_id m, m_border m), m_lig m, m_zset m).
Definition state_of {S A} (r : sres S A) : option S :=
  match r with SOk s _ => Some s | SThrow s _ => Some s | SUB => None end.

Lemma convert_core : forall m m', state_of (convert m) = Some m' -> core m' = core m /\ m_freq m' = m_freq m.
Proof.
  intros m m' H. unfold convert in H.
  destruct (local_extent (m_layout m) (m_border m)) as [l|e|]; cbn [state_of] in H; [|injection H as <-; auto|discriminate].
  destruct (rbind _ _) as [[me pe]|e|]; cbn [state_of] in H; [| |discriminate];
    injection H as <-; auto.
Qed.

Record made (p : layout2d) (type id : Z) (h : list mcall) (m : module) : Prop := mkMade {
  md_layout : m_layout m = p;
  md_type : m_type m = type;
  md_id : m_id m = id;
  md_off : (m_off0 m, m_off1 m) = last_offset h;
  md_offc : (m_offc0 m, m_offc1 m) = point type (last_offset h);
  md_angle : m_angle m = last_angle h;
  md_cos : m_cos m = cos (last_angle h);
  md_sin : m_sin m = sin (last_angle h);
  md_border : m_border m = last_border h;
  md_zget : getZPosition m = last_z h;
  md_neg : Rleb (m_z m) 0 = negative (last_z h);
  md_side : fst (fold_left side_step h (false, false)) = negative (last_z h);
  md_lig : m_lig m = ((type =? lay_type p)%Z && Reqb (last_angle h) 0 && Reqb (fst (last_offset h)) 0
                      && Reqb (snd (last_offset h)) 0 && negb (side_seen h))%bool }.

Lemma call_all_app : forall h m c, call_all m (h ++ [c]) =
  match call_all m h with Some m' => state_of (call_module m' c) | None => None end.
Proof.
  induction h as [|a h IH]; intros; simpl.
  - destruct (call_module m c); reflexivity.
  - destruct (call_module m a); auto.
Qed.

Lemma Rltb_Rleb : forall a b, Rltb a b = negb (Rleb b a).
Proof. intros. destruct (Rltb_spec a b), (Rleb_spec b a); simpl; auto; lra. Qed.

Lemma made_new : forall id p type f, known_type type -> made p type id [] (new_module id p type f).
Proof.
  intros id p type f K. constructor; try reflexivity; unfold new_module; cbn -[Reqb Rleb Rltb cos sin].
  - unfold last_offset, point. cbn. destruct (type =? POLAR)%Z; [|reflexivity]. cbn. now rewrite !Rmult_0_l.
  - unfold last_angle. cbn. now rewrite cos_0.
  - unfold last_angle. cbn. now rewrite sin_0.
  - apply Rleb_false. lra.
  - unfold check_lig, last_angle, last_offset, side_seen. cbn -[Reqb Rltb].
    destruct (Rltb_spec 0 1); [|lra]. now rewrite !andb_true_r.
Qed.

Lemma core_made : forall p type id h m m', core m' = core m -> made p type id h m -> made p type id h m'.
Proof.
  intros p type id h m m' E M. unfold core in E. injection E as E1 E2 E3 E4 E5 E6 E7 E8 E9 E10 E11 E12 E13 E14.
  destruct M. constructor; unfold getZPosition in *; rewrite ?E1, ?E2, ?E3, ?E4, ?E5, ?E6, ?E7, ?E8, ?E9, ?E10, ?E11, ?E12, ?E13, ?E14; assumption.
Qed.

Lemma made_step : forall p type id h m c m', known_type type ->
  made p type id h m -> state_of (call_module m c) = Some m' -> made p type id (h ++ [c]) m'.
Proof.
  intros p type id h m c m' K M H.
  assert (Fo : last_offset (h ++ [c]) = match c with MOffset a b => (a, b) | _ => last_offset h end)
    by (unfold last_offset; rewrite fold_left_app; destruct c; reflexivity).
  assert (Fa : last_angle (h ++ [c]) = match c with MAngle a => a | _ => last_angle h end)
    by (unfold last_angle; rewrite fold_left_app; destruct c; reflexivity).
  assert (Fb : last_border (h ++ [c]) = match c with MBorder a => a | _ => last_border h end)
    by (unfold last_border; rewrite fold_left_app; destruct c; reflexivity).
  assert (Fz : last_z (h ++ [c]) = match c with MZ z => Some z | _ => last_z h end)
    by (unfold last_z; rewrite fold_left_app; destruct c; reflexivity).
  assert (Fs : fold_left side_step (h ++ [c]) (false, false) =
               side_step (fold_left side_step h (false, false)) c) by now rewrite fold_left_app.
  destruct M as [M1 M2 M3 M4 M5 M6 M7 M8 M9 M10 M11 M12 M13].
  pose proof M4 as M4'. destruct (last_offset h) as [o0 o1] eqn:Eo. injection M4' as O0 O1.
  destruct c as [a b|z|a|b|f]; unfold call_module in H.
  - (* offset *)
    unfold setOffset in H. rewrite M2 in H.
    assert (X : made p type id (h ++ [MOffset a b])
      (mkM (m_planeExtent m) (m_moduleExtent m) (m_localExtent m) (m_layout m) (m_freq m) a b
           (fst (point type (a, b))) (snd (point type (a, b))) (m_z m) (m_angle m) (m_cos m) (m_sin m) type
           (m_id m) (m_border m) (check_lig type (m_layout m) (m_angle m) a b (m_z m)) (m_zset m))).
    { constructor; cbn [m_layout m_type m_id m_off0 m_off1 m_offc0 m_offc1 m_angle m_cos m_sin m_border m_z m_lig m_zset];
        rewrite ?Fo, ?Fa, ?Fb, ?Fz; auto.
      - now destruct (point type (a, b)).
      - rewrite Fs. cbn [side_step fst]. auto.
      - unfold side_seen. rewrite Fs. cbn [side_step snd fst]. unfold check_lig. rewrite M12, <- M11, Rltb_Rleb, M1, M6.
        reflexivity. }
    destruct K as [K|K]; rewrite K in *; cbn [Z.eqb POLAR CARTESIAN Pos.eqb] in H;
      apply convert_core in H; destruct H as [H _]; eapply core_made; eauto.
  - (* z *)
    cbn in H. injection H as <-.
    constructor; cbn [m_layout m_type m_id m_off0 m_off1 m_offc0 m_offc1 m_angle m_cos m_sin m_border m_z m_lig m_zset];
      rewrite ?Fo, ?Fa, ?Fb, ?Fz; auto.
    + rewrite Fs. reflexivity.
    + unfold side_seen. rewrite Fs. exact M13.
  - (* angle *)
    unfold setAngle in H. apply convert_core in H. destruct H as [H _]. eapply core_made; [exact H|].
    constructor; cbn [m_layout m_type m_id m_off0 m_off1 m_offc0 m_offc1 m_angle m_cos m_sin m_border m_z m_lig m_zset];
      rewrite ?Fo, ?Fa, ?Fb, ?Fz; auto; try congruence.
    + rewrite Fs. cbn [side_step fst]. auto.
    + unfold side_seen. rewrite Fs. cbn [side_step snd fst]. unfold check_lig. rewrite M12, <- M11, Rltb_Rleb, M1, M2, O0, O1.
      reflexivity.
  - (* border *)
    unfold setBorderWidth in H. apply convert_core in H. destruct H as [H _]. eapply core_made; [exact H|].
    constructor; cbn [m_layout m_type m_id m_off0 m_off1 m_offc0 m_offc1 m_angle m_cos m_sin m_border m_z m_lig m_zset];
      rewrite ?Fo, ?Fa, ?Fb, ?Fz; auto; try congruence.
    + rewrite Fs. cbn [side_step fst]. auto.
    + unfold side_seen. rewrite Fs. exact M13.
  - cbn in H. injection H as <-.
    constructor; cbn [m_layout m_type m_id m_off0 m_off1 m_offc0 m_offc1 m_angle m_cos m_sin m_border m_z m_lig m_zset];
      rewrite ?Fo, ?Fa, ?Fb, ?Fz; auto; try congruence.
    + rewrite Fs. cbn [side_step fst]. auto.
    + unfold side_seen. rewrite Fs. exact M13.
Qed.

Lemma made_is : forall id p type f h m, module_made id p type f h m -> made p type id h m.
Proof.
  intros id p type f h m [K H]. revert m H. induction h as [|c h IH] using rev_ind; intros m H.
  - cbn in H. injection H as <-. now apply made_new.
  - rewrite call_all_app in H. destruct (call_all _ h) as [m0|] eqn:E; [|discriminate].
    eapply made_step; eauto.
Qed.

(** What the getters of a module give back is what was asked for last. *)
Lemma module_getters : forall id p type f h m, module_made id p type f h m ->
  getModuleID m = id /\ getTPCCoordinateType m = type /\ m_layout m = p /\ getOffset m = last_offset h /\
  getAngle m = last_angle h /\ getBorderWidth m = last_border h /\ getZPosition m = last_z h.
Proof.
  intros id p type f h m H. apply made_is in H. destruct H.
  unfold getModuleID, getTPCCoordinateType, getOffset, getAngle, getBorderWidth. tauto.
Qed.

(** ** transforms *)
Lemma point_cart : forall c, point CARTESIAN c = c. Proof. reflexivity. Qed.
Lemma point_polar : forall c, point POLAR c = (fst c * cos (snd c), fst c * sin (snd c)). Proof. reflexivity. Qed.
Lemma same_point : forall r a b, same_angle a b -> (r * cos a, r * sin a) = (r * cos b, r * sin b).
Proof.
  intros r a b H. pose proof (same_angle_cos a b 0 H) as C. pose proof (same_angle_cos a b (PI / 2) H) as S.
  rewrite !Rminus_0_r in C. rewrite !cos_minus, cos_PI2, sin_PI2 in S. rewrite C. f_equal. f_equal. lra.
Qed.
Lemma same_refl : forall a, same_angle a a. Proof. intros. exists 0%Z. simpl. lra. Qed.
Lemma same_sym : forall a b, same_angle a b -> same_angle b a.
Proof. intros a b [k H]. exists (- k)%Z. rewrite opp_IZR, H. lra. Qed.
Lemma same_trans : forall a b c, same_angle a b -> same_angle b c -> same_angle a c.
Proof. intros a b c [k H] [j J]. exists (k + j)%Z. rewrite plus_IZR, H, J. lra. Qed.
Lemma same_plus : forall a, same_angle (a + 2 * PI) a. Proof. intros. exists 1%Z. simpl. lra. Qed.
Lemma same_minus : forall a, same_angle (a - 2 * PI) a. Proof. intros. exists (-1)%Z. simpl. lra. Qed.

Ltac same_solve := first [apply same_refl | apply same_plus | apply same_minus |
  eapply same_trans; [first [apply same_plus | apply same_minus]|first [apply same_plus | apply same_minus]]].

(** sqrt and atan2, with the negative angles moved up, give back the point *)
Lemma polar_back : forall x y, point POLAR
  (sqrt (x * x + y * y), if Rltb (atan2 y x) 0 then atan2 y x + 2 * PI else atan2 y x) = (x, y).
Proof.
  intros x y. rewrite point_polar. cbn [fst snd].
  rewrite (same_point _ _ (atan2 y x)); [|rcase; [apply same_plus|apply same_refl]].
  destruct (Req_dec x 0) as [X|X]; [destruct (Req_dec y 0) as [Y|Y]|].
  - subst. rewrite !Rmult_0_l, Rplus_0_r, sqrt_0, !Rmult_0_l. reflexivity.
  - rewrite atan2_cos, atan2_sin by auto. reflexivity.
  - rewrite atan2_cos, atan2_sin by auto. reflexivity.
Qed.
Lemma polar_back_range : forall x y,
  0 <= (if Rltb (atan2 y x) 0 then atan2 y x + 2 * PI else atan2 y x) < 2 * PI.
Proof. intros. pose proof (atan2_bounds x y). pose proof PI_RGT_0. rcase; lra. Qed.

Lemma unmount_mount : forall p q, unmount p (mount p q) = q.
Proof.
  intros [a x y n] [u v]. unfold unmount, mount. cbn [pl_angle pl_x pl_y pl_neg fst snd].
  pose proof (sin2_cos2 a) as S. unfold Rsqr in S.
  assert (E : forall w, w = w * (sin a * sin a + cos a * cos a)) by (intros; rewrite S; ring).
  destruct n; f_equal; [rewrite (E u) at 3|rewrite (E v) at 3|rewrite (E u) at 3|rewrite (E v) at 3]; ring.
Qed.
Lemma mount_unmount : forall p q, mount p (unmount p q) = q.
Proof.
  intros [a x y n] [u v]. unfold unmount, mount. cbn [pl_angle pl_x pl_y pl_neg fst snd].
  pose proof (sin2_cos2 a) as S. unfold Rsqr in S.
  assert (E : forall w, w * (sin a * sin a + cos a * cos a) = w) by (intros; rewrite S; ring).
  destruct n; f_equal.
  - transitivity (- ((- u - x) * (sin a * sin a + cos a * cos a) + x)); [ring|rewrite E; ring].
  - transitivity ((v - y) * (sin a * sin a + cos a * cos a) + y); [ring|rewrite E; ring].
  - transitivity ((u - x) * (sin a * sin a + cos a * cos a) + x); [ring|rewrite E; ring].
  - transitivity ((v - y) * (sin a * sin a + cos a * cos a) + y); [ring|rewrite E; ring].
Qed.

Lemma mount_dist : forall p a b, pt_dist (mount p a) (mount p b) = pt_dist a b.
Proof.
  intros [t x y n] [u v] [u' v']. unfold pt_dist, RectSpec.dist2, mount. cbn [pl_angle pl_x pl_y pl_neg fst snd].
  f_equal. pose proof (sin2_cos2 t) as S. unfold Rsqr in S.
  transitivity (((u - u') * (u - u') + (v - v') * (v - v')) * (sin t * sin t + cos t * cos t));
    [destruct n; ring|rewrite S; ring].
Qed.

Definition at_rest (h : list mcall) : bool :=
  (Reqb (last_angle h) 0 && Reqb (fst (last_offset h)) 0 && Reqb (snd (last_offset h)) 0)%bool.
Lemma at_rest_true : forall h, at_rest h = true -> last_angle h = 0 /\ last_offset h = (0, 0).
Proof.
  intros h H. unfold at_rest in H. rewrite !andb_true_iff, !Reqb_true in H.
  destruct (last_offset h); cbn in *. intuition; subst; auto.
Qed.

(** the flag, where the side is settled *)
Lemma lig_true : forall p type id h m, made p type id h m -> m_lig m = true -> side_settled p type h ->
  at_origin p type h /\ negative (last_z h) = false.
Proof.
  intros p type id h m M L S. rewrite (md_lig _ _ _ _ _ M) in L.
  rewrite !andb_true_iff, !Reqb_true, Z.eqb_eq, negb_true_iff in L.
  destruct L as [[[[T A] O0] O1] N].
  assert (AO : at_origin p type h).
  { split; [exact T|split; [exact A|]]. destruct (last_offset h); cbn in *; congruence. }
  split; [exact AO|]. destruct S as [S|S]; [congruence|contradiction].
Qed.
Lemma asked_identity : forall p type h q, known_type type -> at_origin p type h -> negative (last_z h) = false ->
  mount (asked type h) q = q /\ unmount (asked type h) q = q.
Proof.
  intros p type h [x y] K (T & A & O) N. unfold asked, mount, unmount. cbn [pl_angle pl_x pl_y pl_neg fst snd].
  rewrite A, O, N, cos_0, sin_0.
  assert (P : point type (0, 0) = (0, 0)).
  { destruct K as [-> | ->]; [reflexivity|]. rewrite point_polar. cbn. now rewrite !Rmult_0_l. }
  rewrite P. cbn. split; f_equal; ring.
Qed.

Lemma lay_type_cases : forall p, lay_type p = CARTESIAN \/ lay_type p = POLAR.
Proof. destruct p; auto. Qed.

Lemma localToGlobal_made : forall p type id h m c0 c1, known_type type -> made p type id h m ->
  side_settled p type h ->
  exists g, localToGlobal m c0 c1 = Ok g /\
    point type g = mount (asked type h) (point (lay_type p) (c0, c1)).
Proof.
  intros p type id h m c0 c1 K M S. unfold localToGlobal. destruct (m_lig m) eqn:L.
  - destruct (lig_true _ _ _ _ _ M L S) as [AO N]. exists (c0, c1). split; [reflexivity|].
    destruct (asked_identity p type h (point (lay_type p) (c0, c1)) K AO N) as [-> _].
    destruct AO as [-> _]. reflexivity.
  - destruct M as [M1 M2 M3 M4 M5 M6 M7 M8 M9 M10 M11 M12 M13]. rewrite M1, M2, M6, M11.
    unfold asked, mount. cbn [pl_angle pl_x pl_y pl_neg].
    destruct (point type (last_offset h)) as [ox oy] eqn:EP. injection M5 as C0 C1. rewrite C0, C1. cbn [fst snd].
    destruct (lay_type_cases p) as [TP|TP]; rewrite TP.
    + cbn [Z.eqb CARTESIAN POLAR Pos.eqb andb]. rewrite point_cart. cbn [fst snd]. rewrite M7, M8.
      destruct K as [-> | ->]; cbn [Z.eqb CARTESIAN POLAR Pos.eqb].
      * eexists. split; [reflexivity|]. rewrite point_cart. destruct (negative _); f_equal; ring.
      * eexists. split; [reflexivity|]. rewrite polar_back. destruct (negative _); f_equal; ring.
    + cbn [Z.eqb CARTESIAN POLAR Pos.eqb andb]. rewrite point_polar. cbn [fst snd].
      assert (RC : c0 * cos (c1 + last_angle h) =
                   c0 * cos c1 * cos (last_angle h) - c0 * sin c1 * sin (last_angle h)) by (rewrite cos_plus; ring).
      assert (RS : c0 * sin (c1 + last_angle h) =
                   c0 * cos c1 * sin (last_angle h) + c0 * sin c1 * cos (last_angle h)) by (rewrite sin_plus; ring).
      destruct K as [-> | ->]; cbn [Z.eqb CARTESIAN POLAR Pos.eqb andb].
      * eexists. split; [reflexivity|]. rewrite point_cart. destruct (negative _); f_equal; rewrite ?RC, ?RS; ring.
      * destruct (Reqb_spec ox 0) as [X|X]; [destruct (Reqb_spec oy 0) as [Y|Y]|]; cbn [andb].
        2,3: eexists; split; [reflexivity|]; rewrite polar_back, <- RC, <- RS; reflexivity.
        subst ox oy. eexists. split; [reflexivity|]. rewrite point_polar. cbn [fst snd].
        set (phi := if negative (last_z h) then PI - (c1 + last_angle h) else c1 + last_angle h).
        rewrite (same_point _ _ phi).
        2:{ repeat rcase; same_solve. }
        rewrite <- RC, <- RS. unfold phi. destruct (negative _); f_equal; try lra.
        -- rewrite Rtrigo_facts.cos_pi_minus. lra.
        -- rewrite Rtrigo_facts.sin_pi_minus. lra.
Qed.

Lemma globalToLocal_made : forall p type id h m c0 c1, known_type type -> made p type id h m ->
  side_settled p type h -> not_on_y_axis p type h ->
  exists l, globalToLocal m c0 c1 = Ok l /\
    point (lay_type p) l = unmount (asked type h) (point type (c0, c1)).
Proof.
  intros p type id h m c0 c1 K M S Y. unfold globalToLocal. destruct (m_lig m) eqn:L.
  - destruct (lig_true _ _ _ _ _ M L S) as [AO N]. exists (c0, c1). split; [reflexivity|].
    destruct (asked_identity p type h (point type (c0, c1)) K AO N) as [_ ->].
    destruct AO as [-> _]. reflexivity.
  - destruct M as [M1 M2 M3 M4 M5 M6 M7 M8 M9 M10 M11 M12 M13]. rewrite M1, M2, M6, M7, M8, M11.
    unfold not_on_y_axis, asked in Y. cbn [pl_x pl_y] in Y.
    unfold asked, unmount. cbn [pl_angle pl_x pl_y pl_neg].
    destruct (point type (last_offset h)) as [ox oy] eqn:EP. injection M5 as C0 C1. rewrite C0, C1. cbn [fst snd] in *.
    set (a := last_angle h) in *.
    destruct K as [-> | ->]; cbn [Z.eqb CARTESIAN POLAR Pos.eqb].
    + rewrite point_cart. cbn [fst snd].
      destruct (lay_type_cases p) as [TP|TP]; rewrite TP; cbn [Z.eqb CARTESIAN POLAR Pos.eqb].
      * eexists. split; [reflexivity|]. rewrite point_cart. destruct (negative _); f_equal; ring.
      * eexists. split; [reflexivity|]. rewrite polar_back. destruct (negative _); f_equal; ring.
    + set (c1' := if negative (last_z h) then PI - c1 else c1).
      assert (PX : c0 * cos c1' = if negative (last_z h) then - (c0 * cos c1) else c0 * cos c1).
      { unfold c1'. destruct (negative _); [rewrite Rtrigo_facts.cos_pi_minus; lra|reflexivity]. }
      assert (PY : c0 * sin c1' = c0 * sin c1).
      { unfold c1'. destruct (negative _); [rewrite Rtrigo_facts.sin_pi_minus; lra|reflexivity]. }
      rewrite point_polar. cbn [fst snd].
      destruct (lay_type_cases p) as [TP|TP]; rewrite TP; cbn [Z.eqb CARTESIAN POLAR Pos.eqb andb].
      * eexists. split; [reflexivity|]. rewrite point_cart, PX, PY. destruct (negative _); f_equal; ring.
      * destruct (Reqb_spec ox 0) as [X|X]; cbn [andb].
        2:{ eexists. split; [reflexivity|]. rewrite polar_back, PX, PY. destruct (negative _); f_equal; ring. }
        specialize (Y eq_refl TP X). rewrite X, Y. eexists. split; [reflexivity|]. rewrite point_polar. cbn [fst snd].
        rewrite (same_point _ _ (c1' - a)).
        2:{ repeat rcase; same_solve. }
        rewrite cos_minus, sin_minus, <- PX, <- PY. f_equal; ring.
Qed.
