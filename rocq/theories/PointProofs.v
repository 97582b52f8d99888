(** Lemmas for C69-C72. *)
From Coq Require Import ZArith List Bool Reals String Lia Lra.
From Verif Require Import Base BaseProofs RBase VecModel CgaModel PointModel PointSpec.
Import ListNotations.
Open Scope list_scope.
Open Scope R_scope.

(** ** The point queries *)
Lemma CdUp_cons n m r : CdUp (n :: m :: r) = m :: r.
Proof. reflexivity. Qed.
Lemma climb_inner addr name top inner t acc : (forall n, In n inner -> addr n <> addr t) -> top = addr t ->
  climb (List.length (inner ++ [t])) addr name top (inner ++ [t]) acc = Some (acc ++ map name (inner ++ [t]), [t]).
Proof.
  intros H ->. revert acc H; induction inner as [|n inner IH]; intros acc H.
  - cbn [app List.length climb]. rewrite Z.eqb_refl. reflexivity.
  - cbn [app List.length climb].
    assert (E : CdUp (n :: inner ++ [t]) = inner ++ [t]) by (destruct inner; reflexivity).
    rewrite E. replace (addr n =? addr t)%Z with false.
    2:{ symmetry. apply Z.eqb_neq. apply H. now left. }
    rewrite IH by (intros m Hm; apply H; now right).
    cbn [map]. rewrite <- app_assoc. reflexivity.
Qed.
Lemma climb_forever fuel addr name top b acc : b <> [] -> (forall n, In n b -> addr n <> top) ->
  climb fuel addr name top b acc = None.
Proof.
  revert b acc; induction fuel as [|k IH]; intros b acc Hb H; [reflexivity|].
  destruct b as [|n b]; [congruence|]. cbn [climb].
  replace (addr n =? top)%Z with false by (symmetry; apply Z.eqb_neq; apply H; now left).
  destruct b as [|m b].
  - apply IH; [discriminate|exact H].
  - rewrite CdUp_cons. apply IH; [discriminate|]. intros x Hx; apply H; now right.
Qed.
Lemma sound_find w p b : sound w -> w_find w p = Some b -> exists n o, b = n :: o.
Proof. intros S F. destruct (S p b F) as ([|n i] & -> & _); cbn [app]; do 2 eexists; reflexivity. Qed.

Lemma names_at_inside w addr name p s inner : w_find w p = Some (inner ++ [w_top w]) ->
  (forall n, In n inner -> addr n <> addr (w_top w)) ->
  names_at w addr name p s = (Gives (PNames (map name (inner ++ [w_top w]))), mkPS [w_top w] (ps_text s)).
Proof.
  intros F H. unfold names_at, FindNode. rewrite F.
  destruct (hd_error (inner ++ [w_top w])) eqn:E; [|destruct inner; discriminate].
  cbn [ps_at ps_text]. rewrite climb_inner by auto. reflexivity.
Qed.
Lemma call_state_free w q p s s' : q <> QLocalPosition -> fst (call w q p s) = fst (call w q p s').
Proof.
  intros H. destruct q; try congruence; unfold call, number_at, names_at, FindNode; try reflexivity.
  all: destruct (w_find w p) as [[|n o]|]; cbn [hd_error fst ps_at ps_text]; try reflexivity.
  all: destruct (climb _ _ _ _ _ _) as [[? ?]|]; reflexivity.
Qed.

Ltac lists S F :=
  let inner := fresh in let E := fresh in let H := fresh in
  destruct (S _ _ F) as (inner & E & H);
  rewrite E in F; unfold call; rewrite (names_at_inside _ _ _ _ _ inner F) by (intros; apply H; assumption);
  rewrite <- E; cbn [fst map].
Lemma answers_right w h q p : sound w -> q <> QLocalPosition -> right_answer w p q (fst (call w q p (history w h))).
Proof.
  intros S H. destruct (w_find w p) as [b|] eqn:F.
  - destruct (sound_find _ _ _ S F) as (n & o & ->).
    destruct q; try congruence.
    all: try solve [constructor; cbn; tauto].
    all: try solve [unfold call, number_at, FindNode; rewrite F; cbn [hd_error fst]; econstructor; exact F].
    + pose proof F as F'. lists S F'. econstructor. exact F.
    + pose proof F as F'. lists S F'. econstructor. exact F.
  - destruct q; try congruence; try solve [constructor; cbn; tauto].
    all: unfold call, number_at, names_at, FindNode; rewrite F; cbn [fst]; apply ra_outside; [exact F|cbn; tauto].
Qed.
Lemma right_answer_unique w p q a b : right_answer w p q a -> right_answer w p q b -> a = b.
Proof.
  unfold lies_in, lies_outside. intros A B. inversion A; subst; inversion B; subst; try congruence; unfold lies_in, lies_outside in *; try congruence.
  all: try reflexivity; exfalso; cbn in *; intuition congruence.
Qed.

Lemma history_snoc w h e : history w (h ++ [e]) = step w (history w h) e.
Proof. unfold history. rewrite fold_left_app. reflexivity. Qed.
Lemma material_or_list q : material_query q \/ list_query q \/ (~ material_query q /\ ~ list_query q).
Proof. unfold material_query, list_query; destruct q; cbn; intuition congruence. Qed.
Lemma leaves_material w q p s b : material_query q -> w_find w p = Some b -> b <> [] -> ps_at (snd (call w q p s)) = b.
Proof.
  intros M F N. destruct b as [|n o]; [congruence|].
  destruct q; cbn in M; try (exfalso; intuition congruence); unfold call, number_at, FindNode; rewrite F; reflexivity.
Qed.
Lemma leaves_list w q p s b : sound w -> list_query q -> w_find w p = Some b -> ps_at (snd (call w q p s)) = [w_top w].
Proof.
  intros S M F. destruct (S _ _ F) as (i & -> & H).
  destruct q; cbn in M; try (exfalso; intuition congruence); unfold call;
    rewrite (names_at_inside _ _ _ _ _ i F) by (intros; apply H; assumption); reflexivity.
Qed.
Lemma leaves_outside w q p s : material_query q \/ list_query q -> w_find w p = None -> ps_at (snd (call w q p s)) = [w_top w].
Proof.
  intros M F. destruct q; cbn in M; try (exfalso; intuition congruence); unfold call, number_at, names_at, FindNode; rewrite F; reflexivity.
Qed.
Lemma leaves_same w q p s : ~ material_query q -> ~ list_query q -> snd (call w q p s) = s.
Proof. intros M L. destruct q; try reflexivity; exfalso; unfold material_query, list_query in *; cbn in *; intuition congruence. Qed.
Lemma history_at w h : sound w -> leaves_at w h (ps_at (history w h)).
Proof.
  intros S. induction h as [|e h IH] using rev_ind; [constructor|].
  rewrite history_snoc. destruct e as [q p|b]; cbn [step].
  - destruct (w_find w p) as [b|] eqn:F.
    + destruct (material_or_list q) as [M|[L|[M L]]].
      * destruct (sound_find _ _ _ S F) as (n & o & E). rewrite (leaves_material _ _ _ _ _ M F) by congruence. now constructor.
      * rewrite (leaves_list _ _ _ _ _ S L F). eapply la_list; eauto.
      * rewrite leaves_same by assumption. now apply la_same.
    + destruct (material_or_list q) as [M|[L|[M L]]].
      * rewrite leaves_outside by auto. apply la_outside; [auto|exact F].
      * rewrite leaves_outside by auto. apply la_outside; [auto|exact F].
      * rewrite leaves_same by assumption. now apply la_same.
  - constructor.
Qed.
Lemma leaves_at_unique w h b b' : leaves_at w h b -> leaves_at w h b' -> b = b'.
Proof.
  assert (D : forall q, material_query q -> list_query q -> False).
  { unfold material_query, list_query; intros q; destruct q; cbn; intuition congruence. }
  intros A; revert b'; induction A; intros b' B; inversion B; subst; unfold lies_outside in *;
    try (match goal with H : [] = _ ++ [_] |- _ => destruct (app_cons_not_nil _ _ _ H) end);
    try (match goal with H : _ ++ [_] = [] |- _ => symmetry in H; destruct (app_cons_not_nil _ _ _ H) end);
    try (match goal with H : _ ++ [_] = _ ++ [_] |- _ => apply app_inj_tail in H; destruct H as [? HH]; inversion HH; subst end);
    try congruence; try tauto; try (exfalso; eauto; fail).
  all: try (match goal with H : _ \/ _ |- _ => destruct H; tauto end).
  all: auto.
Qed.

Lemma local_where w h p b : sound w -> leaves_at w h b ->
  fst (call w QLocalPosition p (history w h)) = Gives (PVector (w_local w b p)).
Proof. intros S L. cbn [call fst]. now rewrite (leaves_at_unique _ _ _ _ (history_at w h S) L). Qed.
Lemma local_after_material w h q p n o : sound w -> material_query q -> lies_in w p n o ->
  right_answer w p QLocalPosition (fst (call w QLocalPosition p (history w (h ++ [Called q p])))).
Proof. intros S M L. rewrite (local_where w _ p (n :: o) S). { now constructor. } now constructor. Qed.
Lemma local_wrong w h p n o b : sound w -> lies_in w p n o -> leaves_at w h b -> w_local w b p <> w_local w (n :: o) p ->
  ~ right_answer w p QLocalPosition (fst (call w QLocalPosition p (history w h))).
Proof.
  intros S L B N R. rewrite (local_where w h p b S B) in R.
  pose proof (right_answer_unique _ _ _ _ _ R (ra_local w p n o L)) as E. congruence.
Qed.
Lemma local_new_wrong w p n o : sound w -> lies_in w p n o -> w_local w [w_top w] p <> w_local w (n :: o) p ->
  ~ right_answer w p QLocalPosition (fst (call w QLocalPosition p (history w []))).
Proof. intros S L N. eapply local_wrong; eauto. constructor. Qed.
Lemma local_after_list_wrong w h q p n o : sound w -> list_query q -> lies_in w p n o -> w_local w [w_top w] p <> w_local w (n :: o) p ->
  ~ right_answer w p QLocalPosition (fst (call w QLocalPosition p (history w (h ++ [Called q p])))).
Proof. intros S Q L N. eapply local_wrong; eauto. eapply la_list; eauto. Qed.
Lemma local_outside w h p : sound w -> lies_outside w p ->
  (exists v, fst (call w QLocalPosition p (history w h)) = Gives (PVector v)) /\
  ~ right_answer w p QLocalPosition (fst (call w QLocalPosition p (history w h))).
Proof.
  intros S L. split; [eexists; reflexivity|]. cbn [call fst]. intros R.
  assert (R' : right_answer w p QLocalPosition (Raises (EGear "OutsideGeometryException"))) by (apply ra_outside; [exact L|cbn; tauto]).
  pose proof (right_answer_unique _ _ _ _ _ R R') as E. discriminate.
Qed.

(** the text behind the reference *)
Lemma text_named w s e t : named w e t -> ps_text (step w s e) = t.
Proof. intros (p & n & o & -> & L & ->). cbn [step call]. unfold FindNode. rewrite L. reflexivity. Qed.
Lemma text_unnamed w s e : (forall t, ~ named w e t) -> (forall q p, e = Called q p -> w_find w p <> Some []) -> ps_text (step w s e) = ps_text s.
Proof.
  intros N NE. destruct e as [q p|b]; [|reflexivity]. specialize (NE q p eq_refl). cbn [step].
  destruct (w_find w p) as [[|n o]|] eqn:F; [exfalso; apply NE; reflexivity| |].
  - destruct q; try (unfold call, number_at, FindNode; rewrite F; reflexivity); try reflexivity.
    + exfalso. apply (N (pm_name (pn_mat n))). exists p, n, o. auto.
    + unfold call, names_at, FindNode. rewrite F. cbn [hd_error]. destruct (climb _ _ _ _ _ _) as [[? ?]|]; reflexivity.
    + unfold call, names_at, FindNode. rewrite F. cbn [hd_error]. destruct (climb _ _ _ _ _ _) as [[? ?]|]; reflexivity.
  - destruct q; try (unfold call, number_at, names_at, FindNode; rewrite F; reflexivity); reflexivity.
Qed.
Lemma text_history w h e t h' : sound w -> named w e t -> (forall e' t', In e' h' -> ~ named w e' t') ->
  ps_text (history w (h ++ e :: h')) = t.
Proof.
  intros S N. revert h'. induction h' as [|e' h' IH] using rev_ind; intros U.
  - rewrite history_snoc. now apply text_named.
  - replace (h ++ e :: h' ++ [e']) with ((h ++ e :: h') ++ [e']) by (now rewrite <- app_assoc).
    rewrite history_snoc, text_unnamed.
    + apply IH. intros x t' Hx. apply U. apply in_or_app. now left.
    + intros t'. apply U. apply in_or_app. right. now left.
    + intros q p _ F. destruct (sound_find _ _ _ S F) as (? & ? & ?). discriminate.
Qed.
Lemma text_changes w h p n o p' n' o' : sound w -> lies_in w p n o -> lies_in w p' n' o' -> pm_name (pn_mat n) <> pm_name (pn_mat n') ->
  fst (call w QMaterialName p (history w h)) = Gives (PText (pm_name (pn_mat n))) /\
  ps_text (history w (h ++ [Called QMaterialName p])) = pm_name (pn_mat n) /\
  ps_text (history w (h ++ [Called QMaterialName p; Called QMaterialName p'])) <> pm_name (pn_mat n).
Proof.
  intros S L L' D. repeat split.
  - cbn [call]. unfold FindNode. rewrite L. reflexivity.
  - apply text_history; auto. exists p, n, o; auto.
  - change [Called QMaterialName p; Called QMaterialName p'] with ([Called QMaterialName p] ++ [Called QMaterialName p']).
    rewrite app_assoc. rewrite (text_history w (h ++ [Called QMaterialName p]) (Called QMaterialName p') (pm_name (pn_mat n')) []); auto.
    exists p', n', o'; auto.
Qed.

(** ** The hierarchy *)
Lemma hierarchy w h p n o : sound w -> lies_in w p n o ->
  exists ls ps,
    fst (call w QLogical p (history w h)) = Gives (PNames ls) /\ fst (call w QPhysical p (history w h)) = Gives (PNames ps) /\
    List.length ls = S (List.length o) /\ List.length ps = S (List.length o) /\
    hd_error ls = Some (pv_name n) /\ hd_error ps = Some (pn_name n) /\
    last ls EmptyString = pv_name (w_top w) /\ last ps EmptyString = pn_name (w_top w) /\
    (forall k m, nth_error (n :: o) k = Some m -> nth_error ls k = Some (pv_name m) /\ nth_error ps k = Some (pn_name m)).
Proof.
  intros S L. pose proof L as L1. pose proof L as L2. red in L1, L2.
  exists (map pv_name (n :: o)), (map pn_name (n :: o)).
  destruct (S _ _ L) as (i & E & _).
  split; [lists S L1; reflexivity|]. split; [lists S L2; reflexivity|].
  rewrite !map_length. repeat split; try reflexivity.
  - rewrite E, map_app. apply last_last.
  - rewrite E, map_app. apply last_last.
  - now apply map_nth_error.
  - now apply map_nth_error.
Qed.
Lemma hierarchy_forever w h p n o : lies_in w p n o ->
  (forall m, In m (n :: o) -> pv_addr m <> pv_addr (w_top w)) ->
  fst (call w QLogical p (history w h)) = Forever /\
  forall turns acc, climb turns pv_addr pv_name (pv_addr (w_top w)) (n :: o) acc = None.
Proof.
  intros L H. split.
  - unfold call, names_at, FindNode. rewrite L. cbn [hd_error ps_at].
    rewrite climb_forever; [reflexivity|discriminate|exact H].
  - intros. apply climb_forever; [discriminate|exact H].
Qed.

(** ** The plugin object *)
Lemma mhistory_snoc fs l e : mhistory fs (l ++ [e]) = mstep fs (mhistory fs l) e.
Proof. unfold mhistory. rewrite fold_left_app. reflexivity. Qed.
Lemma mevent_file_dec e : (exists v, e = MConfig "GDMLFileName" v) \/ (forall k v, e = MConfig k v -> k <> "GDMLFileName"%string).
Proof.
  destruct e as [k v|]; [|right; discriminate].
  destruct (string_dec k "GDMLFileName") as [->|N]; [left; eauto|right]. intros ? ? [= <- <-]. exact N.
Qed.
Lemma configured_snoc_other l e f : (forall k v, e = MConfig k v -> k <> "GDMLFileName"%string) -> configured l f -> configured (l ++ [e]) f.
Proof.
  intros H C. destruct C as [l C|l v l' C].
  - constructor. intros k v I. apply in_app_or in I as [I|[I|[]]]; eauto.
  - rewrite <- app_assoc. cbn [app]. constructor. intros k v' I. apply in_app_or in I as [I|[I|[]]]; eauto.
Qed.
Lemma configured_exists l : exists f, configured l f.
Proof.
  induction l as [|e l (f & IH)] using rev_ind.
  - exists EmptyString. constructor. intros ? ? [].
  - destruct (mevent_file_dec e) as [(v & ->)|N].
    + exists v. constructor. intros ? ? [].
    + exists f. now apply configured_snoc_other.
Qed.
Definition cfg_file (m : mprops) : string := match sm_find "GDMLFileName" (mp_cfg m) with Some f => f | None => EmptyString end.
Lemma cfg_step fs m e : cfg_file (mstep fs m e) = match e with MConfig k v => if String.eqb k "GDMLFileName" then v else cfg_file m | MInitialize => cfg_file m end.
Proof.
  destruct e as [k v|].
  - cbn [mstep]. unfold mp_config, cfg_file. cbn [mp_cfg].
    destruct (String.eqb k "GDMLFileName") eqn:E.
    + apply String.eqb_eq in E as ->. now rewrite sm_find_set_same.
    + apply String.eqb_neq in E. rewrite sm_find_set_other by congruence. reflexivity.
  - cbn [mstep]. unfold mp_initialize, cfg_file.
    destruct (sm_find "GDMLFileName" (mp_cfg m)) as [f|] eqn:F.
    + destruct (fs f); cbn [snd mp_cfg]; now rewrite F.
    + destruct (fs EmptyString); cbn [snd mp_cfg]; now rewrite sm_find_set_same.
Qed.
Lemma cfg_history fs l f : configured l f -> cfg_file (mhistory fs l) = f.
Proof.
  intros C. destruct C as [l C|l v l' C].
  - induction l as [|e l IH] using rev_ind; [reflexivity|]. rewrite mhistory_snoc, cfg_step.
    destruct e as [k v|].
    + replace (String.eqb k "GDMLFileName") with false.
      * apply IH. intros k' v' I. apply (C k' v'). apply in_or_app. now left.
      * symmetry. apply String.eqb_neq. apply (C k v). apply in_or_app. right. now left.
    + apply IH. intros k' v' I. apply (C k' v'). apply in_or_app. now left.
  - induction l' as [|e l' IH] using rev_ind.
    + rewrite mhistory_snoc, cfg_step. now rewrite String.eqb_refl.
    + replace (l ++ MConfig "GDMLFileName" v :: l' ++ [e]) with ((l ++ MConfig "GDMLFileName" v :: l') ++ [e]) by now rewrite <- app_assoc.
      rewrite mhistory_snoc, cfg_step. destruct e as [k v'|].
      * replace (String.eqb k "GDMLFileName") with false.
        -- apply IH. intros k' w' I. apply (C k' w'). apply in_or_app. now left.
        -- symmetry. apply String.eqb_neq. apply (C k v'). apply in_or_app. right. now left.
      * apply IH. intros k' v' I. apply (C k' v'). apply in_or_app. now left.
Qed.
Lemma configured_unique l f f' : configured l f -> configured l f' -> f = f'.
Proof. intros A B. now rewrite <- (cfg_history (fun _ => None) l f A), <- (cfg_history (fun _ => None) l f' B). Qed.
Lemma init_result fs l f : configured l f ->
  (forall w, fs f = Some w -> fst (mp_initialize fs (mhistory fs l)) = Ok tt) /\
  (fs f = None -> exists t, fst (mp_initialize fs (mhistory fs l)) = Throw (EParse t)).
Proof.
  intros C. apply (cfg_history fs) in C. unfold cfg_file in C. unfold mp_initialize. rewrite C.
  split; [intros w E; rewrite E; reflexivity|intros E; rewrite E; eexists; reflexivity].
Qed.
Lemma init_step fs l f : configured l f -> mp_init (mhistory fs (l ++ [MInitialize])) = match fs f with Some w => Some w | None => mp_init (mhistory fs l) end.
Proof.
  intros C. apply (cfg_history fs) in C. unfold cfg_file in C. rewrite mhistory_snoc. cbn [mstep]. unfold mp_initialize. rewrite C.
  destruct (fs f); reflexivity.
Qed.
Lemma app_snoc_cases {A} (l l1 l2 : list A) (e x : A) : l ++ [e] = l1 ++ x :: l2 ->
  (l2 = [] /\ l = l1 /\ e = x) \/ exists l3, l2 = l3 ++ [e] /\ l = l1 ++ x :: l3.
Proof.
  destruct l2 as [|y l2] using rev_ind; intros H.
  - apply app_inj_tail in H as [-> ->]. auto.
  - right. exists l2. rewrite app_comm_cons, app_assoc in H. apply app_inj_tail in H as [H ->]. auto.
Qed.
Lemma init_iff fs l w : mp_init (mhistory fs l) = Some w <-> last_read fs l w.
Proof.
  revert w; induction l as [|e l IH] using rev_ind; intros w.
  - split; [discriminate|]. intros (l1 & l2 & f & E & _). destruct (app_cons_not_nil _ _ _ E).
  - assert (K : (e <> MInitialize \/ (exists f, configured l f /\ fs f = None)) -> last_read fs (l ++ [e]) w <-> last_read fs l w).
    { intros H. split.
      - intros (l1 & l2 & f & E & C & F & U). apply app_snoc_cases in E as [(-> & -> & ->)|(l3 & -> & ->)].
        + destruct H as [H|(f' & C' & N)]; [congruence|]. rewrite (configured_unique _ _ _ C C') in F. congruence.
        + exists l1, l3, f. repeat split; auto. intros l4 l5 f' -> C'. eapply U; eauto. now rewrite <- app_assoc.
      - intros (l1 & l2 & f & -> & C & F & U). exists l1, (l2 ++ [e]), f. rewrite <- app_assoc. repeat split; auto.
        intros l3 l4 f' E C'. apply app_snoc_cases in E as [(-> & -> & ->)|(l5 & -> & ->)].
        + destruct H as [H|(f2 & C2 & N)]; [congruence|]. now rewrite (configured_unique _ _ _ C' C2).
        + eapply U; eauto. }
    destruct e as [k v|].
    + rewrite mhistory_snoc. cbn [mstep]. unfold mp_config. cbn [mp_init]. rewrite IH. symmetry. apply K. left. discriminate.
    + destruct (configured_exists l) as (f & C). rewrite (init_step fs l f C).
      destruct (fs f) as [w'|] eqn:F.
      * split.
        -- intros [= ->]. exists l, [], f. repeat split; auto. intros l3 l4 f' E. destruct (app_cons_not_nil _ _ _ E).
        -- intros (l1 & l2 & f1 & E & C1 & F1 & U). apply app_snoc_cases in E as [(-> & -> & _)|(l3 & -> & ->)].
           ++ rewrite <- F, (configured_unique _ _ _ C C1). auto.
           ++ specialize (U l3 [] f eq_refl C). congruence.
      * rewrite IH. symmetry. apply K. right; eauto.
Qed.
Lemma objects_iff fs l w :
  (mp_point (mhistory fs l) = Some w <-> last_read fs l w) /\ (mp_distance (mhistory fs l) = Some w <-> last_read fs l w).
Proof. split; exact (init_iff fs l w). Qed.
Lemma gdml_read lib fs f :
  (forall w, lib = true -> fs f = Some w -> gdml_file lib fs f = Ok (Some (Some w, Some w))) /\
  (lib = true -> fs f = None -> exists t, gdml_file lib fs f = Throw (EParse t)) /\
  (lib = false -> gdml_file lib fs f = Ok None).
Proof.
  assert (E : gdml_file lib fs f = if lib then match fs f with Some w => Ok (Some (Some w, Some w)) | None => Throw (EParse "TGeoGeometryInitializer: Could not find GDML file") end else Ok None).
  { unfold gdml_file, mp_initialize. cbn. destruct lib; [|reflexivity]. destruct (fs f); reflexivity. }
  rewrite E. repeat split.
  - intros w -> ->. reflexivity.
  - intros -> ->. eexists. reflexivity.
  - intros ->. reflexivity.
Qed.

(** ** CGA *)
Lemma csum_total l : csum l = total l.
Proof.
  unfold csum. rewrite fold_symmetric by (intros; ring). { induction l; cbn; [reflexivity|now f_equal]. }
Qed.
Lemma cga_beam_way mk p0 p1 : cga_beam mk p0 p1 = way mk p0 p1.
Proof.
  unfold cga_beam, way, in_cm, vsub. cbn [vx vy vz].
  f_equal; f_equal; field.
Qed.
Lemma fill_nil {A} mk (l : list A) : fill mk [] l = l.
Proof. unfold fill. destruct (mk_appends mk); reflexivity. Qed.
Lemma cga_numbers mk h p0 p1 :
  fst (cga_distance mk CRadlen p0 p1 (chistory mk h)) = PNumber (total (map cs_x0 (way mk p0 p1))) /\
  fst (cga_distance mk CIntlen p0 p1 (chistory mk h)) = PNumber (total (map cs_il (way mk p0 p1))) /\
  fst (cga_distance mk CBdL p0 p1 (chistory mk h)) = PNumber (mk_bdl mk p0 p1) /\
  fst (cga_distance mk CEdL p0 p1 (chistory mk h)) = PNumber (mk_edl mk p0 p1).
Proof. cbn [cga_distance fst]. rewrite !fill_nil, !csum_total, cga_beam_way. repeat split. Qed.
Lemma chistory_snoc mk h e : chistory mk (h ++ [e]) = cstep_state mk (chistory mk h) e.
Proof. unfold chistory. rewrite fold_left_app. reflexivity. Qed.
Lemma cga_point_lists mk q p s : c_names (snd (cga_point mk q p s)) = c_names s /\ c_lens (snd (cga_point mk q p s)) = c_lens s.
Proof. destruct q; cbn; auto. Qed.
Lemma appended mk h : mk_appends mk = true -> c_names (chistory mk h) = names_asked mk h /\ c_lens (chistory mk h) = lengths_asked mk h.
Proof.
  intros A. induction h as [|e h (IH1 & IH2)] using rev_ind; [split; reflexivity|].
  rewrite chistory_snoc. unfold names_asked, lengths_asked in *. rewrite !flat_map_app. cbn [flat_map]. rewrite !app_nil_r.
  destruct e as [q p0 p1|q p]; cbn [cstep_state].
  - destruct q; cbn [cga_distance snd c_names c_lens]; unfold fill; rewrite ?A, ?cga_beam_way, ?IH1, ?IH2, ?app_nil_r; auto.
  - destruct (cga_point_lists mk q p (chistory mk h)) as [-> ->]. rewrite !app_nil_r. auto.
Qed.
Lemma cga_lists mk h p0 p1 : mk_appends mk = false ->
  fst (cga_distance mk CNames p0 p1 (chistory mk h)) = PNames (map cs_mat (way mk p0 p1)) /\
  fst (cga_distance mk CThicknesses p0 p1 (chistory mk h)) = PLengths (map cs_len (way mk p0 p1)).
Proof. intros A. cbn [cga_distance fst]. unfold fill. rewrite A, cga_beam_way. auto. Qed.
Lemma cga_lists_appended mk h p0 p1 : mk_appends mk = true ->
  fst (cga_distance mk CNames p0 p1 (chistory mk h)) = PNames (names_asked mk h ++ map cs_mat (way mk p0 p1)) /\
  fst (cga_distance mk CThicknesses p0 p1 (chistory mk h)) = PLengths (lengths_asked mk h ++ map cs_len (way mk p0 p1)).
Proof.
  intros A. destruct (appended mk h A) as [E1 E2]. cbn [cga_distance fst]. unfold fill.
  rewrite A, cga_beam_way, E1, E2. auto.
Qed.
Lemma cga_lists_wrong mk h p0 p1 q0 q1 : mk_appends mk = true -> In (CDistance CNames q0 q1) h -> way mk q0 q1 <> [] ->
  fst (cga_distance mk CNames p0 p1 (chistory mk h)) <> PNames (map cs_mat (way mk p0 p1)).
Proof.
  intros A I N E. rewrite (proj1 (cga_lists_appended mk h p0 p1 A)) in E. injection E as E.
  assert (Z : List.length (names_asked mk h) = 0%nat).
  { apply (f_equal (@List.length _)) in E. rewrite app_length, map_length in E. lia. }
  apply length_zero_iff_nil in Z. destruct (way mk q0 q1) as [|c l] eqn:W; [congruence|].
  assert (J : In (cs_mat c) (names_asked mk h)).
  { unfold names_asked. apply in_flat_map. eexists; split; [exact I|]. cbn. rewrite W. now left. }
  rewrite Z in J. destruct J.
Qed.
Lemma cga_point_free mk h q p : fst (cga_point mk q p (chistory mk h)) = fst (cga_point mk q p new_cstate).
Proof. destruct q; reflexivity. Qed.
Lemma cga_point_answers mk h p :
  fst (cga_point mk QMaterialName p (chistory mk h)) = Ok (PText (mk_name mk p)) /\
  (forall q, In q [QDensity; QTemperature; QPressure; QRadlen; QIntlen] -> fst (cga_point mk q p (chistory mk h)) = Ok (PNumber (mk_number mk q p))) /\
  (forall q, In q [QLocalPosition; QB; QE] -> forall v,
     fst (cga_point mk q p (chistory mk h)) = Ok v <-> exists x y z r, mk_vector mk q p = x :: y :: z :: r /\ v = PVector (mkVec x y z)) /\
  (forall q, In q [QLocalPosition; QB; QE] -> fst (cga_point mk q p (chistory mk h)) = UB <-> (List.length (mk_vector mk q p) < 3)%nat) /\
  (forall q, In q [QLogical; QPhysical] -> fst (cga_point mk q p (chistory mk h)) = Ok (PNames (mk_names mk q p))) /\
  fst (cga_point mk QRegion p (chistory mk h)) = Ok (PText (mk_region mk p)) /\
  (forall q, In q [QIsTracker; QIsCalorimeter] -> fst (cga_point mk q p (chistory mk h)) = Ok (PBool (mk_bool mk q p))).
Proof.
  assert (T : forall l v, three l = Ok v <-> exists x y z r, l = x :: y :: z :: r /\ v = PVector (mkVec x y z)).
  { intros [|x [|y [|z r]]] v; cbn; split; try discriminate; try (intros (? & ? & ? & ? & ? & _); discriminate).
    - intros [= <-]. exists x, y, z, r. auto.
    - intros (? & ? & ? & ? & [= <- <- <- <-] & ->). reflexivity. }
  assert (T2 : forall l, three l = UB <-> (List.length l < 3)%nat).
  { intros [|x [|y [|z r]]]; cbn; split; try discriminate; auto; lia. }
  repeat split; intros; cbn in H; repeat destruct H as [<-|H]; try contradiction; try reflexivity;
    try (apply T; assumption); try (apply T2; assumption).
Qed.
