From Coq Require Import ZArith List String Reals Sorted Lia Bool.
From Verif Require Import Base BaseProofs ParamsModel ParamsSpec ParamsProofs MgrModel MgrSpec.
Import ListNotations.
Open Scope list_scope.

Definition fld (d : detector) : field :=
  match d with
  | TPC => F_tpc | EcalBarrel => F_ecalBarrel | EcalEndcap => F_ecalEndcap
  | EcalPlug => F_ecalPlug | YokeBarrel => F_yokeBarrel | YokeEndcap => F_yokeEndcap
  | YokePlug => F_yokePlug | HcalBarrel => F_hcalBarrel | HcalEndcap => F_hcalEndcap
  | HcalRing => F_hcalRing | Lcal => F_lcal | LHcal => F_lhcal | BeamCal => F_beamcal
  | VXD => F_vxd | SIT => F_sit | SET => F_set | FTD => F_ftd
  | TrackerPlanes => F_trackerplanes | SiPlanes => F_siplanes
  | PointProperties => F_pointProperties | DistanceProperties => F_distanceProperties
  | BField => F_bField
  end.
Definition det (f : field) : detector :=
  match f with
  | F_tpc => TPC | F_ecalBarrel => EcalBarrel | F_ecalEndcap => EcalEndcap
  | F_ecalPlug => EcalPlug | F_yokeBarrel => YokeBarrel | F_yokeEndcap => YokeEndcap
  | F_yokePlug => YokePlug | F_hcalBarrel => HcalBarrel | F_hcalEndcap => HcalEndcap
  | F_hcalRing => HcalRing | F_lcal => Lcal | F_lhcal => LHcal | F_beamcal => BeamCal
  | F_vxd => VXD | F_sit => SIT | F_set => SET | F_ftd => FTD
  | F_trackerplanes => TrackerPlanes | F_siplanes => SiPlanes
  | F_pointProperties => PointProperties | F_distanceProperties => DistanceProperties
  | F_bField => BField
  end.
Lemma fld_det : forall f, fld (det f) = f. Proof. destruct f; reflexivity. Qed.
Lemma det_fld : forall d, det (fld d) = d. Proof. destruct d; reflexivity. Qed.
Lemma fld_inj : forall a b, fld a = fld b -> a = b.
Proof. intros a b H. rewrite <- (det_fld a), <- (det_fld b), H. reflexivity. Qed.
Lemma det_eq_dec : forall a b : detector, {a = b} + {a <> b}.
Proof. decide equality. Qed.

(** Every setter is: an optional effect on the heap, then one member write. *)
Lemma set_det_shape : forall d p s,
  (d = TPC /\ set_det d p s = setTPCParameters p s) \/
  (d <> TPC /\ is_forward d = true /\
     set_det d p s = match add_crossing_angle p s with
                     | None => SUB | Some s1 => SOk (write_field (fld d) p s1) tt end) \/
  (d <> TPC /\ is_forward d = false /\ set_det d p s = SOk (write_field (fld d) p s) tt).
Proof.
  intros d p s. destruct d;
    try (left; split; reflexivity);
    try (right; left; split; [discriminate|split; reflexivity]);
    right; right; (split; [discriminate|split; reflexivity]).
Qed.

Lemma get_det_shape : forall d m, exists msg, get_det d m = get_or_throw (m_ptr m (fld d)) msg.
Proof. intros d m. destruct d; eexists; reflexivity. Qed.

Lemma write_field_same : forall f p s, m_ptr (st_mgr (write_field f p s)) f = p.
Proof. intros. simpl. destruct (field_eq_dec f f); congruence. Qed.
Lemma write_field_other : forall f g p s, g <> f ->
  m_ptr (st_mgr (write_field f p s)) g = m_ptr (st_mgr s) g.
Proof. intros. simpl. destruct (field_eq_dec g f); congruence. Qed.

Lemma add_crossing_mgr : forall p s s1, add_crossing_angle p s = Some s1 -> st_mgr s1 = st_mgr s.
Proof.
  intros p s s1 H. unfold add_crossing_angle in H.
  destruct p as [a|]; [|discriminate].
  destruct (h_live (st_heap s) a); [|discriminate].
  destruct (getDoubleVal _ _); inversion H; reflexivity.
Qed.
Lemma add_crossing_live : forall p s s1, add_crossing_angle p s = Some s1 ->
  forall a, h_live (st_heap s1) a = h_live (st_heap s) a.
Proof.
  intros p s s1 H. unfold add_crossing_angle in H.
  destruct p as [a|]; [|discriminate].
  destruct (h_live (st_heap s) a); [|discriminate].
  destruct (getDoubleVal _ _); inversion H; reflexivity.
Qed.
Lemma add_crossing_name : forall p s s1, add_crossing_angle p s = Some s1 ->
  h_matName (st_heap s1) = h_matName (st_heap s).
Proof.
  intros p s s1 H. unfold add_crossing_angle in H.
  destruct p as [a|]; [|discriminate].
  destruct (h_live (st_heap s) a); [|discriminate].
  destruct (getDoubleVal _ _); inversion H; reflexivity.
Qed.
Lemma delete_name : forall p h h', delete_obj p h = Some h' -> h_matName h' = h_matName h.
Proof.
  intros p h h' H. destruct p as [a|]; simpl in H; [|inversion H; reflexivity].
  destruct (h_live h a); inversion H; reflexivity.
Qed.

(** Outcome of one step when it is not UB, as a state. *)
Definition step (c : call) (s : mstate) : option mstate :=
  match do_call c s with SOk s' _ => Some s' | SThrow s' _ => Some s' | SUB => None end.

Lemma run_snoc : forall h c s,
  run (h ++ [c]) s = match run h s with Some s' => step c s' | None => None end.
Proof.
  induction h as [|x h IH]; intros c s; simpl.
  - unfold step. destruct (do_call c s); reflexivity.
  - destruct (do_call x s); auto.
Qed.

Lemma run_snoc_inv : forall h c s s2, run (h ++ [c]) s = Some s2 ->
  exists s1, run h s = Some s1 /\ step c s1 = Some s2.
Proof.
  intros h c s s2 H. rewrite run_snoc in H. destruct (run h s) as [s1|]; [|discriminate].
  exists s1; auto.
Qed.

(** ** Pointer members *)
Lemma step_ptr : forall c s s', step c s = Some s' -> forall f,
  m_ptr (st_mgr s') f =
  match c with CSet d p => if field_eq_dec f (fld d) then p else m_ptr (st_mgr s) f
             | _ => m_ptr (st_mgr s) f end.
Proof.
  intros c s s' H f. unfold step in H. destruct c as [d p|k p|n|p]; simpl in H.
  - destruct (set_det_shape d p s) as [[-> E]|[[N [Hf E]]|[N [Hf E]]]]; rewrite E in H.
    + unfold setTPCParameters in H. destruct (delete_obj _ _) as [hp|]; [|discriminate].
      inversion H; subst; reflexivity.
    + destruct (add_crossing_angle p s) as [s1|] eqn:Ea; [|discriminate].
      inversion H; subst. simpl. rewrite (add_crossing_mgr _ _ _ Ea). reflexivity.
    + inversion H; subst; reflexivity.
  - unfold setGearParameters in H. destruct p as [a|]; [|inversion H; reflexivity].
    destruct (sm_find _ _) as [old|]; [|inversion H; reflexivity].
    destruct (delete_obj _ _); inversion H; reflexivity.
  - inversion H; reflexivity.
  - unfold registerSimpleMaterial in H. destruct p as [a|]; [|discriminate].
    destruct (h_live _ _); [|discriminate].
    destruct (sm_find _ _); inversion H; reflexivity.
Qed.

Lemma ptr_history : forall hp h s, run h (fresh hp) = Some s -> forall d,
  last_set d h (m_ptr (st_mgr s) (fld d)) \/
  ((forall p, ~ In (CSet d p) h) /\ m_ptr (st_mgr s) (fld d) = None).
Proof.
  intros hp h. induction h as [|c h IH] using rev_ind; intros s H d.
  - inversion H; subst. right. split; [intros p []|reflexivity].
  - apply run_snoc_inv in H. destruct H as [s1 [H1 Hs]].
    specialize (IH s1 H1 d). pose proof (step_ptr _ _ _ Hs (fld d)) as Hp.
    assert (Hkeep : (forall p, c <> CSet d p) -> m_ptr (st_mgr s) (fld d) = m_ptr (st_mgr s1) (fld d) ->
       last_set d (h ++ [c]) (m_ptr (st_mgr s) (fld d)) \/
       ((forall p, ~ In (CSet d p) (h ++ [c])) /\ m_ptr (st_mgr s) (fld d) = None)).
    { intros Hc Heq. rewrite Heq. destruct IH as [(h1 & h2 & -> & Hno)|[Hno Hn]].
      - left. exists h1, (h2 ++ [c]). split; [rewrite <- app_assoc; reflexivity|].
        intros q Hq. apply in_app_or in Hq. destruct Hq as [Hq|[Hq|[]]]; [eapply Hno; eauto|].
        eapply Hc; eauto.
      - right. split; [|exact Hn]. intros q Hq. apply in_app_or in Hq.
        destruct Hq as [Hq|[Hq|[]]]; [eapply Hno; eauto|eapply Hc; eauto]. }
    destruct c as [d' p|k p|n|p]; try (apply Hkeep; [discriminate|exact Hp]).
    destruct (field_eq_dec (fld d) (fld d')) as [E|E].
    + apply fld_inj in E. subst d'. left. rewrite Hp. exists h, []. split; [reflexivity|intros ? []].
    + apply Hkeep; [intros q Hq; inversion Hq; subst; congruence|exact Hp].
Qed.

Lemma slots_history : forall hp h s, run h (fresh hp) = Some s -> forall d,
  (exists a h1 h2, h = h1 ++ CSet d (Some a) :: h2 /\ (forall q, ~ In (CSet d q) h2) /\
     get_det d (st_mgr s) = Ok a) \/
  (((forall q, ~ In (CSet d q) h) \/
    (exists h1 h2, h = h1 ++ CSet d None :: h2 /\ forall q, ~ In (CSet d q) h2)) /\
   exists msg, get_det d (st_mgr s) = Throw (EUnknownParameter msg)).
Proof.
  intros hp h s H d. destruct (get_det_shape d (st_mgr s)) as [msg Eg]. rewrite Eg.
  destruct (ptr_history _ _ _ H d) as [Hl|[Hno Hn]].
  - destruct (m_ptr (st_mgr s) (fld d)) as [a|].
    + left. destruct Hl as (h1 & h2 & E & Hno). exists a, h1, h2. auto.
    + right. split; [right; exact Hl|exists msg; reflexivity].
  - right. rewrite Hn. split; [left; exact Hno|exists msg; reflexivity].
Qed.

(** ** Generic parameters *)
Lemma step_map : forall c s s', step c s = Some s' ->
  m_map (st_mgr s') =
  match c with CGeneric k (Some a) => sm_set k (Some a) (m_map (st_mgr s)) | _ => m_map (st_mgr s) end.
Proof.
  intros c s s' H. unfold step in H. destruct c as [d p|k p|n|p]; simpl in H.
  - destruct (set_det_shape d p s) as [[-> E]|[[N [Hf E]]|[N [Hf E]]]]; rewrite E in H.
    + unfold setTPCParameters in H. destruct (delete_obj _ _); inversion H; reflexivity.
    + destruct (add_crossing_angle p s) as [s1|] eqn:Ea; [|discriminate].
      inversion H; subst. simpl. rewrite (add_crossing_mgr _ _ _ Ea). reflexivity.
    + inversion H; reflexivity.
  - unfold setGearParameters in H. destruct p as [a|]; [|inversion H; reflexivity].
    destruct (sm_find _ _) as [old|]; [|inversion H; reflexivity].
    destruct (delete_obj _ _); inversion H; reflexivity.
  - inversion H; reflexivity.
  - unfold registerSimpleMaterial in H. destruct p as [a|]; [|discriminate].
    destruct (h_live _ _); [|discriminate].
    destruct (sm_find _ _); inversion H; reflexivity.
Qed.

Lemma map_history : forall hp h s, run h (fresh hp) = Some s -> forall k,
  (exists a h1 h2, h = h1 ++ CGeneric k (Some a) :: h2 /\
     (forall b, ~ In (CGeneric k (Some b)) h2) /\
     sm_find k (m_map (st_mgr s)) = Some (Some a)) \/
  ((forall b, ~ In (CGeneric k (Some b)) h) /\ sm_find k (m_map (st_mgr s)) = None).
Proof.
  intros hp h. induction h as [|c h IH] using rev_ind; intros s H k.
  - inversion H; subst. right. split; [intros p []|reflexivity].
  - apply run_snoc_inv in H. destruct H as [s1 [H1 Hs]].
    specialize (IH s1 H1 k). pose proof (step_map _ _ _ Hs) as Hp.
    assert (Hkeep : (forall b, c <> CGeneric k (Some b)) ->
       sm_find k (m_map (st_mgr s)) = sm_find k (m_map (st_mgr s1)) ->
      (exists a h1 h2, h ++ [c] = h1 ++ CGeneric k (Some a) :: h2 /\
         (forall b, ~ In (CGeneric k (Some b)) h2) /\
         sm_find k (m_map (st_mgr s)) = Some (Some a)) \/
      ((forall b, ~ In (CGeneric k (Some b)) (h ++ [c])) /\ sm_find k (m_map (st_mgr s)) = None)).
    { intros Hc Heq. rewrite Heq. destruct IH as [(a & h1 & h2 & -> & Hno & Hf)|[Hno Hn]].
      - left. exists a, h1, (h2 ++ [c]). split; [rewrite <- app_assoc; reflexivity|split; [|exact Hf]].
        intros q Hq. apply in_app_or in Hq. destruct Hq as [Hq|[Hq|[]]]; [eapply Hno; eauto|].
        eapply Hc; eauto.
      - right. split; [|exact Hn]. intros q Hq. apply in_app_or in Hq.
        destruct Hq as [Hq|[Hq|[]]]; [eapply Hno; eauto|eapply Hc; eauto]. }
    destruct c as [d' p|k' p|n|p]; try (apply Hkeep; [discriminate|rewrite Hp; reflexivity]).
    destruct p as [a|]; [|apply Hkeep; [discriminate|rewrite Hp; reflexivity]].
    destruct (string_dec k' k) as [->|N].
    + left. exists a, h, []. split; [reflexivity|split; [intros ? []|]].
      rewrite Hp. apply sm_find_set_same.
    + apply Hkeep; [intros b Hb; inversion Hb; congruence|].
      rewrite Hp. apply sm_find_set_other. congruence.
Qed.

Lemma map_sorted : forall hp h s, run h (fresh hp) = Some s ->
  StronglySorted slt (sm_keys (m_map (st_mgr s))).
Proof.
  intros hp h. induction h as [|c h IH] using rev_ind; intros s H.
  - inversion H; subst. constructor.
  - apply run_snoc_inv in H. destruct H as [s1 [H1 Hs]]. rewrite (step_map _ _ _ Hs).
    specialize (IH s1 H1). destruct c as [d p|k [a|]|n|p]; auto. apply sm_set_sorted; auto.
Qed.

Lemma generic_history : forall hp h s, run h (fresh hp) = Some s -> forall k,
  (exists a h1 h2, h = h1 ++ CGeneric k (Some a) :: h2 /\
     (forall b, ~ In (CGeneric k (Some b)) h2) /\
     getGearParameters (st_mgr s) k = Ok a /\ In k (getGearParameterKeys (st_mgr s))) \/
  ((forall b, ~ In (CGeneric k (Some b)) h) /\
   (exists msg, getGearParameters (st_mgr s) k = Throw (EUnknownParameter msg)) /\
   ~ In k (getGearParameterKeys (st_mgr s))).
Proof.
  intros hp h s H k. destruct (map_history _ _ _ H k) as [(a & h1 & h2 & E & Hno & Hf)|[Hno Hf]].
  - left. exists a, h1, h2. split; [exact E|split; [exact Hno|]]. unfold getGearParameters.
    rewrite Hf. split; [reflexivity|].
    apply sm_find_in in Hf. apply (in_map fst) in Hf. exact Hf.
  - right. split; [exact Hno|]. unfold getGearParameters. rewrite Hf.
    split; [eexists; reflexivity|]. apply sm_find_none_iff. exact Hf.
Qed.

(** ** Detector name *)
Lemma step_name : forall c s s', step c s = Some s' ->
  m_name (st_mgr s') = match c with CName n => n | _ => m_name (st_mgr s) end.
Proof.
  intros c s s' H. unfold step in H. destruct c as [d p|k p|n|p]; simpl in H.
  - destruct (set_det_shape d p s) as [[-> E]|[[N [Hf E]]|[N [Hf E]]]]; rewrite E in H.
    + unfold setTPCParameters in H. destruct (delete_obj _ _); inversion H; reflexivity.
    + destruct (add_crossing_angle p s) as [s1|] eqn:Ea; [|discriminate].
      inversion H; subst. simpl. rewrite (add_crossing_mgr _ _ _ Ea). reflexivity.
    + inversion H; reflexivity.
  - unfold setGearParameters in H. destruct p as [a|]; [|inversion H; reflexivity].
    destruct (sm_find _ _) as [old|]; [|inversion H; reflexivity].
    destruct (delete_obj _ _); inversion H; reflexivity.
  - inversion H; reflexivity.
  - unfold registerSimpleMaterial in H. destruct p as [a|]; [|discriminate].
    destruct (h_live _ _); [|discriminate].
    destruct (sm_find _ _); inversion H; reflexivity.
Qed.

Lemma name_history : forall hp h s, run h (fresh hp) = Some s ->
  (exists n h1 h2, h = h1 ++ CName n :: h2 /\ (forall m, ~ In (CName m) h2) /\
     m_name (st_mgr s) = n) \/
  ((forall m, ~ In (CName m) h) /\ m_name (st_mgr s) = EmptyString).
Proof.
  intros hp h. induction h as [|c h IH] using rev_ind; intros s H.
  - inversion H; subst. right. split; [intros p []|reflexivity].
  - apply run_snoc_inv in H. destruct H as [s1 [H1 Hs]].
    specialize (IH s1 H1). pose proof (step_name _ _ _ Hs) as Hp.
    assert (Hkeep : (forall m, c <> CName m) -> m_name (st_mgr s) = m_name (st_mgr s1) ->
      (exists n h1 h2, h ++ [c] = h1 ++ CName n :: h2 /\ (forall m, ~ In (CName m) h2) /\
         m_name (st_mgr s) = n) \/
      ((forall m, ~ In (CName m) (h ++ [c])) /\ m_name (st_mgr s) = EmptyString)).
    { intros Hc Heq. rewrite Heq. destruct IH as [(a & h1 & h2 & -> & Hno & Hf)|[Hno Hn]].
      - left. exists a, h1, (h2 ++ [c]). split; [rewrite <- app_assoc; reflexivity|split; [|exact Hf]].
        intros q Hq. apply in_app_or in Hq. destruct Hq as [Hq|[Hq|[]]]; [eapply Hno; eauto|].
        eapply Hc; eauto.
      - right. split; [|exact Hn]. intros q Hq. apply in_app_or in Hq.
        destruct Hq as [Hq|[Hq|[]]]; [eapply Hno; eauto|eapply Hc; eauto]. }
    destruct c as [d' p|k' p|n|p]; try (apply Hkeep; [discriminate|exact Hp]).
    left. exists n, h, []. split; [reflexivity|split; [intros ? []|exact Hp]].
Qed.

Lemma detname_history : forall hp h s, run h (fresh hp) = Some s ->
  (exists n h1 h2, h = h1 ++ CName n :: h2 /\ (forall m, ~ In (CName m) h2) /\
     n <> EmptyString /\ getDetectorName (st_mgr s) = Ok n) \/
  (((forall m, ~ In (CName m) h) \/
    (exists h1 h2, h = h1 ++ CName EmptyString :: h2 /\ forall m, ~ In (CName m) h2)) /\
   exists msg, getDetectorName (st_mgr s) = Throw (EUnknownParameter msg)).
Proof.
  intros hp h s H. unfold getDetectorName.
  destruct (name_history _ _ _ H) as [(n & h1 & h2 & E & Hno & Hn)|[Hno Hn]]; rewrite Hn.
  - destruct n as [|x n].
    + right. split; [right; exists h1, h2; auto|eexists; reflexivity].
    + left. exists (String x n), h1, h2. split; [exact E|split; [exact Hno|split; [discriminate|]]].
      reflexivity.
  - right. split; [left; exact Hno|eexists; reflexivity].
Qed.

(** ** Materials *)
Lemma step_matName : forall c s s', step c s = Some s' ->
  h_matName (st_heap s') = h_matName (st_heap s).
Proof.
  intros c s s' H. unfold step in H. destruct c as [d p|k p|n|p]; simpl in H.
  - destruct (set_det_shape d p s) as [[-> E]|[[N [Hf E]]|[N [Hf E]]]]; rewrite E in H.
    + unfold setTPCParameters in H. destruct (delete_obj _ _) as [h|] eqn:Ed; [|discriminate].
      inversion H; subst. simpl. eapply delete_name; eauto.
    + destruct (add_crossing_angle p s) as [s1|] eqn:Ea; [|discriminate].
      inversion H; subst. simpl. eapply add_crossing_name; eauto.
    + inversion H; reflexivity.
  - unfold setGearParameters in H. destruct p as [a|]; [|inversion H; reflexivity].
    destruct (sm_find _ _) as [old|]; [|inversion H; reflexivity].
    destruct (delete_obj _ _) as [h|] eqn:Ed; inversion H; subst. simpl. eapply delete_name; eauto.
  - inversion H; reflexivity.
  - unfold registerSimpleMaterial in H. destruct p as [a|]; [|discriminate].
    destruct (h_live _ _); [|discriminate].
    destruct (sm_find _ _); inversion H; reflexivity.
Qed.

Lemma run_matName : forall h hp s, run h (fresh hp) = Some s -> h_matName (st_heap s) = h_matName hp.
Proof.
  induction h as [|c h IH] using rev_ind; intros hp s H.
  - inversion H; reflexivity.
  - apply run_snoc_inv in H. destruct H as [s1 [H1 Hs]].
    rewrite (step_matName _ _ _ Hs). eauto.
Qed.

Lemma step_mat : forall c s s', step c s = Some s' ->
  m_mat (st_mgr s') =
  match c with
  | CMaterial (Some a) =>
      match sm_find (h_matName (st_heap s) a) (m_mat (st_mgr s)) with
      | Some _ => m_mat (st_mgr s)
      | None => sm_set (h_matName (st_heap s) a) a (m_mat (st_mgr s))
      end
  | _ => m_mat (st_mgr s) end.
Proof.
  intros c s s' H. unfold step in H. destruct c as [d p|k p|n|p]; simpl in H.
  - destruct (set_det_shape d p s) as [[-> E]|[[N [Hf E]]|[N [Hf E]]]]; rewrite E in H.
    + unfold setTPCParameters in H. destruct (delete_obj _ _); inversion H; reflexivity.
    + destruct (add_crossing_angle p s) as [s1|] eqn:Ea; [|discriminate].
      inversion H; subst. simpl. rewrite (add_crossing_mgr _ _ _ Ea). reflexivity.
    + inversion H; reflexivity.
  - unfold setGearParameters in H. destruct p as [a|]; [|inversion H; reflexivity].
    destruct (sm_find _ _) as [old|]; [|inversion H; reflexivity].
    destruct (delete_obj _ _); inversion H; reflexivity.
  - inversion H; reflexivity.
  - unfold registerSimpleMaterial in H. destruct p as [a|]; [|discriminate].
    destruct (h_live _ _); [|discriminate].
    destruct (sm_find _ _); inversion H; reflexivity.
Qed.

Lemma mat_history : forall hp h s, run h (fresh hp) = Some s -> forall n,
  (exists a, first_mat (h_matName hp) h n a /\ sm_find n (m_mat (st_mgr s)) = Some a) \/
  ((forall b, In (CMaterial (Some b)) h -> h_matName hp b <> n) /\
   sm_find n (m_mat (st_mgr s)) = None).
Proof.
  intros hp h. induction h as [|c h IH] using rev_ind; intros s H n.
  - inversion H; subst. right. split; [intros p []|reflexivity].
  - apply run_snoc_inv in H. destruct H as [s1 [H1 Hs]].
    specialize (IH s1 H1 n). pose proof (step_mat _ _ _ Hs) as Hp.
    rewrite (run_matName _ _ _ H1) in Hp.
    assert (Hsnoc: forall a, first_mat (h_matName hp) h n a -> first_mat (h_matName hp) (h ++ [c]) n a).
    { intros a (h1 & h2 & -> & E & Hno). exists h1, (h2 ++ [c]).
      split; [rewrite <- app_assoc; reflexivity|auto]. }
    assert (Hsame : (forall b, c = CMaterial (Some b) -> h_matName hp b <> n) ->
       sm_find n (m_mat (st_mgr s)) = sm_find n (m_mat (st_mgr s1)) ->
      (exists a, first_mat (h_matName hp) (h ++ [c]) n a /\ sm_find n (m_mat (st_mgr s)) = Some a) \/
      ((forall b, In (CMaterial (Some b)) (h ++ [c]) -> h_matName hp b <> n) /\
        sm_find n (m_mat (st_mgr s)) = None)).
    { intros Hc Heq. rewrite Heq. destruct IH as [(a & Hf & Hg)|[Hno Hn]].
      - left. exists a. auto.
      - right. split; [|exact Hn]. intros b Hb. apply in_app_or in Hb.
        destruct Hb as [Hb|[Hb|[]]]; auto. }
    destruct c as [d' p|k' p|m|p]; try (apply Hsame; [discriminate|rewrite Hp; reflexivity]).
    destruct p as [a|]; [|apply Hsame; [discriminate|rewrite Hp; reflexivity]].
    destruct (string_dec (h_matName hp a) n) as [E|N].
    + destruct IH as [(b & Hf & Hg)|[Hno Hn]].
      * left. exists b. split; [auto|]. rewrite Hp, E, Hg. exact Hg.
      * left. exists a. split.
        -- exists h, []. auto.
        -- rewrite Hp, E, Hn. apply sm_find_set_same.
    + apply Hsame.
      * intros b Hb. inversion Hb; subst; auto.
      * rewrite Hp. destruct (sm_find (h_matName hp a) (m_mat (st_mgr s1))); [reflexivity|].
        apply sm_find_set_other. congruence.
Qed.

Lemma mat_sorted : forall hp h s, run h (fresh hp) = Some s ->
  StronglySorted slt (sm_keys (m_mat (st_mgr s))).
Proof.
  intros hp h. induction h as [|c h IH] using rev_ind; intros s H.
  - inversion H; subst. constructor.
  - apply run_snoc_inv in H. destruct H as [s1 [H1 Hs]]. rewrite (step_mat _ _ _ Hs).
    specialize (IH s1 H1). destruct c as [d p|k p|n|[a|]]; auto.
    destruct (sm_find _ _); auto. apply sm_set_sorted; auto.
Qed.

Lemma material_history : forall hp h s, run h (fresh hp) = Some s -> forall n,
  (exists a h1 h2, h = h1 ++ CMaterial (Some a) :: h2 /\ h_matName hp a = n /\
     (forall b, In (CMaterial (Some b)) h1 -> h_matName hp b <> n) /\
     getSimpleMaterial (st_mgr s) n = Ok a /\ In n (getMaterialNames (st_mgr s))) \/
  ((forall b, In (CMaterial (Some b)) h -> h_matName hp b <> n) /\
   (exists msg, getSimpleMaterial (st_mgr s) n = Throw (EUnknownParameter msg)) /\
   ~ In n (getMaterialNames (st_mgr s))).
Proof.
  intros hp h s H n. unfold getSimpleMaterial, getMaterialNames.
  destruct (mat_history _ _ _ H n) as [(a & (h1 & h2 & E & En & Hno) & Hf)|[Hno Hf]]; rewrite Hf.
  - left. exists a, h1, h2. repeat split; auto.
    apply sm_find_in in Hf. apply (in_map fst) in Hf. exact Hf.
  - right. split; [exact Hno|]. split; [eexists; reflexivity|]. apply sm_find_none_iff. exact Hf.
Qed.

Lemma material_duplicate : forall a b s,
  h_live (st_heap s) a = true ->
  getSimpleMaterial (st_mgr s) (h_matName (st_heap s) a) = Ok b ->
  exists msg, registerSimpleMaterial (Some a) s = SThrow s (EGear msg).
Proof.
  intros a b s Hl Hg. unfold getSimpleMaterial in Hg. unfold registerSimpleMaterial.
  rewrite Hl. destruct (sm_find _ _); [|discriminate]. eexists; reflexivity.
Qed.

(** ** Beam crossing angle *)
Lemma getDouble_ok_or_throw : forall p k, (exists r, getDoubleVal p k = Ok r) \/
   getDoubleVal p k = Throw (EUnknownParameter k).
Proof.
  intros. unfold getDoubleVal, lookup_or_throw. destruct (sm_find k (p_double p)); [left|right]; eauto.
Qed.

Lemma crossing_angle : forall d a s,
  is_forward d = true -> h_live (st_heap s) a = true ->
  exists s', set_det d (Some a) s = SOk s' tt /\
    get_det d (st_mgr s') = Ok a /\
    (match getDoubleVal (h_params (st_heap s) a) "beam_crossing_angle" with
     | Ok r => getDoubleVal (h_params (st_heap s') a) "beam_crossing_angle" = Ok r
     | _ => getDoubleVal (h_params (st_heap s') a) "beam_crossing_angle" = Ok 0%R
     end) /\
    (forall t k, ~ (t = TDouble /\ k = "beam_crossing_angle"%string) ->
       do_get t (h_params (st_heap s') a) k = do_get t (h_params (st_heap s) a) k) /\
    (forall b, b <> a -> h_params (st_heap s') b = h_params (st_heap s) b) /\
    (forall b, h_live (st_heap s') b = h_live (st_heap s) b).
Proof.
  intros d a s Hf Hl.
  destruct (set_det_shape d (Some a) s) as [[-> E]|[[N [_ E]]|[N [Hf' E]]]];
    [discriminate| |congruence].
  rewrite E. unfold add_crossing_angle. rewrite Hl.
  destruct (getDouble_ok_or_throw (h_params (st_heap s) a) "beam_crossing_angle") as [[r Hr]|Hr].
  - rewrite Hr. eexists. split; [reflexivity|].
    split; [destruct (get_det_shape d (st_mgr (write_field (fld d) (Some a) s))) as [msg ->];
            rewrite write_field_same; reflexivity|].
    repeat split; auto.
  - rewrite Hr. eexists. split; [reflexivity|].
    split; [match goal with |- get_det d ?m = _ => destruct (get_det_shape d m) as [msg ->] end;
            rewrite write_field_same; reflexivity|].
    simpl. rewrite Z.eqb_refl. repeat split.
    + unfold getDoubleVal, lookup_or_throw. simpl. rewrite sm_find_set_same. reflexivity.
    + intros t k Hk.
      change (setDoubleVal (h_params (st_heap s) a) "beam_crossing_angle" 0%R)
        with (do_set (h_params (st_heap s) a) ("beam_crossing_angle"%string, VDouble 0%R)).
      apply do_get_set_other.
      destruct (ptype_dec TDouble t) as [<-|Nt]; [|left; exact Nt].
      right. intros Ek. apply Hk. auto.
    + intros b Hb. destruct (Z.eqb_spec b a); [contradiction|reflexivity].
Qed.

(** ** Ownership *)
Lemma delete_all_spec : forall l h,
  NoDup (flat_map (fun p => match p with Some a => [a] | None => [] end) l) ->
  (forall a, In (Some a) l -> h_live h a = true) ->
  exists h', delete_all l h = Some h' /\
    forall a, h_live h' a = true <-> h_live h a = true /\ ~ In (Some a) l.
Proof.
  induction l as [|p l IH]; intros h Hnd Hl.
  - exists h. split; [reflexivity|]. intros a. simpl. tauto.
  - destruct p as [x|]; simpl in *.
    + rewrite (Hl x) by auto. inversion Hnd as [|? ? Hx Hnd']; subst.
      set (h1 := mkHeap (fun b => if Z.eqb b x then false else h_live h b) (h_params h) (h_matName h)).
      assert (Hin: forall a, In (Some a) l -> a <> x).
      { intros a Ha ->. apply Hx. apply in_flat_map. exists (Some x). split; [exact Ha|simpl; auto]. }
      destruct (IH h1) as [h' [E Hh]].
      * exact Hnd'.
      * intros a Ha. simpl. destruct (Z.eqb_spec a x); [exfalso; eapply Hin; eauto|auto].
      * exists h'. split; [exact E|]. intros a. rewrite Hh. simpl.
        destruct (Z.eqb_spec a x) as [->|N]; split; intros H.
        -- destruct H; discriminate.
        -- exfalso. apply (proj2 H). auto.
        -- destruct H. split; [auto|]. intros [Q|Q]; [congruence|auto].
        -- destruct H. split; [auto|]. intros Q; auto.
    + destruct (IH h) as [h' [E Hh]]; [exact Hnd|auto|].
      exists h'. split; [exact E|]. intros a. rewrite Hh.
      split; intros [A B]; (split; [exact A|]); [intros [Q|Q]; [discriminate|auto]|auto].
Qed.

(** Two calls handing over the same object are the same call. *)
Lemma handed_unique : forall h c1 c2 a, NoDup (flat_map handed h) ->
  In c1 h -> In c2 h -> In a (handed c1) -> In a (handed c2) -> c1 = c2.
Proof.
  induction h as [|c h IH]; intros c1 c2 a Hnd H1 H2 A1 A2; [destruct H1|].
  simpl in Hnd.
  assert (Hdis: forall x, In x (handed c) -> ~ In x (flat_map handed h)).
  { clear -Hnd. intros x Hx Hx'. revert Hnd. induction (handed c) as [|y l IHl]; [destruct Hx|].
    simpl. intros Hnd. inversion Hnd; subst. destruct Hx as [->|Hx].
    - apply H1. apply in_or_app; auto.
    - apply IHl; auto. }
  assert (Hnd': NoDup (flat_map handed h)).
  { clear -Hnd. induction (handed c); [exact Hnd|]. inversion Hnd; auto. }
  destruct H1 as [<-|H1], H2 as [<-|H2]; auto.
  - exfalso. apply (Hdis a A1). apply in_flat_map. eauto.
  - exfalso. apply (Hdis a A2). apply in_flat_map. eauto.
  - eauto.
Qed.

(** [a] was given to the TPC or a generic slot and is not there any more. *)
Definition replaced (h : list call) (s : mstate) (a : addr) : Prop :=
  (In (CSet TPC (Some a)) h /\ m_ptr (st_mgr s) F_tpc <> Some a) \/
  (exists k, In (CGeneric k (Some a)) h /\ sm_find k (m_map (st_mgr s)) <> Some (Some a)).

Lemma nodup_snoc : forall h c, NoDup (flat_map handed (h ++ [c])) ->
  NoDup (flat_map handed h) /\
  (forall a, In a (handed c) -> ~ In a (flat_map handed h)).
Proof.
  intros h c H. rewrite flat_map_app in H. simpl in H. rewrite app_nil_r in H.
  split.
  - clear -H. induction (flat_map handed h) as [|x l IH]; [constructor|].
    simpl in H. inversion H; subst. constructor; [|auto].
    intros Hx. apply H2. apply in_or_app; auto.
  - intros a Ha Hin. clear -H Ha Hin. induction (flat_map handed h) as [|x l IH]; [destruct Hin|].
    simpl in H. inversion H; subst. destruct Hin as [->|Hin]; [|auto].
    apply H2. apply in_or_app; auto.
Qed.

Lemma ptr_in_history : forall hp h s d a, run h (fresh hp) = Some s ->
  m_ptr (st_mgr s) (fld d) = Some a -> In (CSet d (Some a)) h.
Proof.
  intros hp h s d a H E. destruct (ptr_history _ _ _ H d) as [(h1 & h2 & -> & _)|[_ Hn]].
  - rewrite E. apply in_or_app. simpl. auto.
  - congruence.
Qed.
Lemma map_in_history : forall hp h s k p, run h (fresh hp) = Some s ->
  sm_find k (m_map (st_mgr s)) = Some p -> exists a, p = Some a /\ In (CGeneric k (Some a)) h.
Proof.
  intros hp h s k p H E. destruct (map_history _ _ _ H k) as [(a & h1 & h2 & -> & _ & F)|[_ F]].
  - exists a. split; [congruence|]. apply in_or_app. simpl. auto.
  - congruence.
Qed.
Lemma mat_in_history : forall hp h s n a, run h (fresh hp) = Some s ->
  sm_find n (m_mat (st_mgr s)) = Some a -> In (CMaterial (Some a)) h /\ h_matName hp a = n.
Proof.
  intros hp h s n a H E. destruct (mat_history _ _ _ H n) as [(b & (h1 & h2 & -> & En & _) & F)|[_ F]].
  - assert (b = a) by congruence. subst. split; [|reflexivity]. apply in_or_app. simpl. auto.
  - congruence.
Qed.

Lemma handed_set : forall h d a, In (CSet d (Some a)) h -> In a (flat_map handed h).
Proof. intros. apply in_flat_map. eexists; split; [eassumption|simpl; auto]. Qed.
Lemma handed_gen : forall h k a, In (CGeneric k (Some a)) h -> In a (flat_map handed h).
Proof. intros. apply in_flat_map. eexists; split; [eassumption|simpl; auto]. Qed.
Lemma handed_mat : forall h a, In (CMaterial (Some a)) h -> In a (flat_map handed h).
Proof. intros. apply in_flat_map. eexists; split; [eassumption|simpl; auto]. Qed.

(** Liveness after a run. *)
Lemma run_live : forall hp h,
  NoDup (flat_map handed h) ->
  (forall a, In a (flat_map handed h) -> h_live hp a = true) ->
  (forall c, In c h -> has_object c) ->
  exists s, run h (fresh hp) = Some s /\
    forall a, h_live (st_heap s) a = true <-> h_live hp a = true /\ ~ replaced h s a.
Proof.
  intros hp h. induction h as [|c h IH] using rev_ind; intros Hnd Hl Hobj.
  - exists (fresh hp). split; [reflexivity|]. intros a. simpl. split; [|tauto].
    intros H. split; [exact H|]. intros [[[] _]|[k [[] _]]].
  - destruct (nodup_snoc _ _ Hnd) as [Hnd1 Hnew].
    assert (Hsub: forall a, In a (flat_map handed h) -> h_live hp a = true).
    { intros a Ha. apply Hl. rewrite flat_map_app. apply in_or_app; auto. }
    destruct (IH Hnd1 Hsub) as [s [Hr Hlive]].
    { intros x Hx. apply Hobj. apply in_or_app; auto. }
    assert (Hc : has_object c) by (apply Hobj; apply in_or_app; simpl; auto).
    assert (Hcl : forall a, In a (handed c) -> h_live (st_heap s) a = true).
    { intros a Ha. apply Hlive. split.
      - apply Hl. rewrite flat_map_app. apply in_or_app. right. simpl. rewrite app_nil_r. exact Ha.
      - intros [[Hin _]|[k [Hin _]]]; apply (Hnew a Ha); [eapply handed_set|eapply handed_gen]; eauto. }
    assert (Hfin : forall s', step c s = Some s' -> 
      (forall a, h_live (st_heap s') a = true <-> h_live hp a = true /\ ~ replaced (h ++ [c]) s' a) ->
      exists s, run (h ++ [c]) (fresh hp) = Some s /\
       (forall a, h_live (st_heap s) a = true <-> h_live hp a = true /\ ~ replaced (h ++ [c]) s a)).
    { intros s' Es Hs'. exists s'. rewrite run_snoc, Hr. auto. }
    (* a step that changes neither liveness nor the TPC/generic slots *)
    assert (Hkeep : forall s', step c s = Some s' ->
      (forall a, h_live (st_heap s') a = h_live (st_heap s) a) ->
      (forall p, c <> CSet TPC p) -> (forall k a, c <> CGeneric k (Some a)) ->
      forall a, h_live (st_heap s') a = true <-> h_live hp a = true /\ ~ replaced (h ++ [c]) s' a).
    { intros s' Es Hsame Hnt Hng a. rewrite Hsame, Hlive.
      assert (Heq: replaced (h ++ [c]) s' a <-> replaced h s a).
      { unfold replaced. rewrite (step_map _ _ _ Es), (step_ptr _ _ _ Es F_tpc).
        assert (E1: match c with CSet d p => if field_eq_dec F_tpc (fld d) then p else m_ptr (st_mgr s) F_tpc
             | _ => m_ptr (st_mgr s) F_tpc end = m_ptr (st_mgr s) F_tpc).
        { destruct c as [d p|k p|n|p]; auto. destruct (field_eq_dec F_tpc (fld d)) as [E|E]; auto.
          exfalso. apply (Hnt p). f_equal. apply fld_inj. simpl. auto. }
        assert (E2: match c with CGeneric k (Some a) => sm_set k (Some a) (m_map (st_mgr s))
             | _ => m_map (st_mgr s) end = m_map (st_mgr s)).
        { destruct c as [d p|k [b|]|n|p]; auto. exfalso. eapply Hng; reflexivity. }
        rewrite E1, E2.
        split; (intros [[H1 H2]|[k [H1 H2]]]; [left|right; exists k]; (split; [|exact H2])).
        - apply in_app_or in H1. destruct H1 as [H1|[H1|[]]]; [auto|exfalso; eapply Hnt; eauto].
        - apply in_app_or in H1. destruct H1 as [H1|[H1|[]]]; [auto|exfalso; eapply Hng; eauto].
        - apply in_or_app; auto.
        - apply in_or_app; auto. }
      rewrite Heq. reflexivity. }
    destruct c as [d p|k p|n|p].
    + destruct (set_det_shape d p s) as [[-> E]|[[N [Hf E]]|[N [Hf E]]]].
      * (* TPC *)
        assert (Hdel: exists hp', delete_obj (m_ptr (st_mgr s) F_tpc) (st_heap s) = Some hp' /\
           forall a, h_live hp' a = true <->
             h_live (st_heap s) a = true /\ m_ptr (st_mgr s) F_tpc <> Some a).
        { destruct (m_ptr (st_mgr s) F_tpc) as [x|] eqn:Ex; simpl.
          - assert (Hx: h_live (st_heap s) x = true).
            { apply Hlive. split.
              - apply Hsub. eapply handed_set. eapply ptr_in_history with (d := TPC); eauto.
              - intros [[_ Q]|[k [Hin Q]]]; [congruence|].
                pose proof (ptr_in_history _ _ _ TPC x Hr Ex) as Hin2.
                assert (CSet TPC (Some x) = CGeneric k (Some x))
                  by (eapply handed_unique; eauto; simpl; auto).
                discriminate. }
            rewrite Hx. eexists. split; [reflexivity|]. intros a. simpl.
            destruct (Z.eqb_spec a x) as [->|Na].
            + split; [discriminate|intros [_ Q]; congruence].
            + split; [intros Q; split; [exact Q|congruence]|tauto].
          - eexists. split; [reflexivity|]. intros a. split; [intros Q; split; [exact Q|discriminate]|tauto]. }
        destruct Hdel as [hp' [Ed Hd]].
        apply (Hfin (write_field F_tpc p (mkM hp' (st_mgr s)))).
        { unfold step. simpl. unfold setTPCParameters. rewrite Ed. reflexivity. }
        intros a. simpl. rewrite Hd, Hlive. split.
        -- intros [[Ha Hnr] Hne]. split; [exact Ha|]. intros [[Hin Q]|[k [Hin Q]]].
           ++ simpl in Q. apply in_app_or in Hin. destruct Hin as [Hin|[Hin|[]]].
              ** apply Hnr. left. split; auto.
              ** inversion Hin; subst. apply Q. reflexivity.
           ++ simpl in Q. apply in_app_or in Hin. destruct Hin as [Hin|[Hin|[]]]; [|discriminate].
              apply Hnr. right. exists k. auto.
        -- intros [Ha Hnr].
           assert (Hold: m_ptr (st_mgr s) F_tpc <> Some a).
           { intros Q. apply Hnr. left. split.
             - apply in_or_app. left. eapply ptr_in_history with (d := TPC); eauto.
             - simpl. intros Q2. subst p. eapply (Hnew a); [simpl; auto|].
               eapply handed_set. eapply ptr_in_history with (d := TPC); eauto. }
           split; [split; [exact Ha|]|exact Hold].
           intros [[Hin Q]|[k [Hin Q]]]; apply Hnr.
           ++ left. split; [apply in_or_app; auto|]. simpl. intros Q2. subst p.
              eapply (Hnew a); [simpl; auto|]. eapply handed_set; eauto.
           ++ right. exists k. split; [apply in_or_app; auto|exact Q].
      * (* forward calorimeters *)
        destruct p as [x|]; [|simpl in Hc; congruence].
        assert (Hx: h_live (st_heap s) x = true) by (apply Hcl; simpl; auto).
        destruct (add_crossing_angle (Some x) s) as [s1|] eqn:Ea.
        2:{ unfold add_crossing_angle in Ea. rewrite Hx in Ea.
            destruct (getDoubleVal _ _); discriminate. }
        assert (Es: step (CSet d (Some x)) s = Some (write_field (fld d) (Some x) s1)).
        { unfold step. simpl. rewrite E. reflexivity. }
        apply (Hfin _ Es). apply Hkeep; auto.
        -- intros a. simpl. eapply add_crossing_live; eauto.
        -- intros p Hp. inversion Hp. congruence.
        -- discriminate.
      * assert (Es: step (CSet d p) s = Some (write_field (fld d) p s)).
        { unfold step. simpl. rewrite E. reflexivity. }
        apply (Hfin _ Es). apply Hkeep; auto.
        -- intros q Hp. inversion Hp. congruence.
        -- discriminate.
    + destruct p as [x|].
      2:{ assert (Es: step (CGeneric k None) s = Some s) by reflexivity.
          apply (Hfin _ Es). apply Hkeep; auto; discriminate. }
      assert (Hmap: exists hp', step (CGeneric k (Some x)) s =
                Some (mkM hp' (mkMgr (m_ptr (st_mgr s)) (sm_set k (Some x) (m_map (st_mgr s)))
                                 (m_mat (st_mgr s)) (m_name (st_mgr s)))) /\
          forall a, h_live hp' a = true <->
             h_live (st_heap s) a = true /\ sm_find k (m_map (st_mgr s)) <> Some (Some a)).
      { unfold step. simpl. destruct (sm_find k (m_map (st_mgr s))) as [old|] eqn:Ef.
        - destruct (map_in_history _ _ _ _ _ Hr Ef) as [y [-> Hin]]. simpl.
          assert (Hy: h_live (st_heap s) y = true).
          { apply Hlive. split; [apply Hsub; eapply handed_gen; eauto|].
            intros [[Hin2 _]|[k2 [Hin2 Q]]].
            - assert (CGeneric k (Some y) = CSet TPC (Some y)) by (eapply handed_unique; eauto; simpl; auto).
              discriminate.
            - assert (Eq2: CGeneric k (Some y) = CGeneric k2 (Some y))
                by (eapply handed_unique; eauto; simpl; auto).
              inversion Eq2; subst. apply Q; exact Ef. }
          rewrite Hy. eexists. split; [reflexivity|]. intros a. simpl.
          destruct (Z.eqb_spec a y) as [->|Na].
          + split; [discriminate|intros [_ Q]; exfalso; apply Q; reflexivity].
          + split; [intros Q; split; [exact Q|intros Q2; inversion Q2; auto]|tauto].
        - eexists. split; [reflexivity|]. intros a.
          split; [intros Q; split; [exact Q|discriminate]|tauto]. }
      destruct Hmap as [hp' [Es Hd]].
      apply (Hfin _ Es). intros a. simpl. rewrite Hd, Hlive. split.
      * intros [[Ha Hnr] Hne]. split; [exact Ha|]. intros [[Hin Q]|[k2 [Hin Q]]]; simpl in Q.
        -- apply in_app_or in Hin. destruct Hin as [Hin|[Hin|[]]]; [|discriminate].
           apply Hnr. left. auto.
        -- apply in_app_or in Hin. destruct Hin as [Hin|[Hin|[]]].
           ++ destruct (string_dec k2 k) as [->|Nk].
              ** apply Hnr. right. exists k. auto.
              ** rewrite sm_find_set_other in Q by exact Nk. apply Hnr. right. exists k2. auto.
           ++ inversion Hin; subst. rewrite sm_find_set_same in Q. congruence.
      * intros [Ha Hnr].
        assert (Hxa: In a (flat_map handed h) -> a <> x).
        { intros Hin ->. apply (Hnew x); simpl; auto. }
        assert (Hold: sm_find k (m_map (st_mgr s)) <> Some (Some a)).
        { intros Q. destruct (map_in_history _ _ _ _ _ Hr Q) as [b [Eb Hin]]. inversion Eb; subst b.
          apply Hnr. right. exists k. split; [apply in_or_app; auto|]. simpl.
          rewrite sm_find_set_same. intros Q2. inversion Q2; subst. apply Hxa; [|reflexivity].
          eapply handed_gen; eauto. }
        split; [split; [exact Ha|]|exact Hold].
        intros [[Hin Q]|[k2 [Hin Q]]]; apply Hnr.
        -- left. split; [apply in_or_app; auto|exact Q].
        -- right. exists k2. split; [apply in_or_app; auto|]. simpl.
           destruct (string_dec k2 k) as [->|Nk].
           ++ rewrite sm_find_set_same. intros Q2. inversion Q2; subst. apply Hxa; [|reflexivity].
              eapply handed_gen; eauto.
           ++ rewrite sm_find_set_other by exact Nk. exact Q.
    + assert (Es: step (CName n) s = Some (mkM (st_heap s) (mkMgr (m_ptr (st_mgr s)) (m_map (st_mgr s)) (m_mat (st_mgr s)) n))) by reflexivity.
      apply (Hfin _ Es). apply Hkeep; auto; discriminate.
    + destruct p as [x|]; [|destruct Hc].
      assert (Hx: h_live (st_heap s) x = true) by (apply Hcl; simpl; auto).
      destruct (step (CMaterial (Some x)) s) as [s'|] eqn:Es.
      * apply (Hfin s' eq_refl). apply Hkeep; auto; try discriminate.
        intros a. unfold step in Es. simpl in Es. rewrite Hx in Es.
        destruct (sm_find _ _) in Es; inversion Es; reflexivity.
      * exfalso. unfold step in Es. simpl in Es. rewrite Hx in Es.
        destruct (sm_find _ _) in Es; discriminate.
Qed.

Lemma cleanup_order_all : forall f, In f cleanup_order.
Proof. destruct f; simpl; tauto. Qed.
Lemma cleanup_order_nodup : NoDup cleanup_order.
Proof. unfold cleanup_order. repeat (constructor; [simpl; intuition discriminate|]). constructor. Qed.

Definition olist (p : ptr) : list addr := match p with Some a => [a] | None => [] end.

Lemma in_flat_olist : forall l a, In a (flat_map olist l) <-> In (Some a) l.
Proof.
  intros l a. rewrite in_flat_map. split.
  - intros [[b|] [H1 H2]]; simpl in H2; [|tauto]. destruct H2 as [->|[]]. exact H1.
  - intros H. exists (Some a). simpl. auto.
Qed.

Lemma nodup_flat_olist_map : forall {X} (f : X -> ptr) (l : list X),
  NoDup l -> (forall x y a, In x l -> In y l -> f x = Some a -> f y = Some a -> x = y) ->
  NoDup (flat_map olist (map f l)).
Proof.
  induction l as [|x l IH]; intros Hnd Hinj; simpl; [constructor|].
  inversion Hnd; subst.
  assert (IHl: NoDup (flat_map olist (map f l))).
  { apply IH; auto. intros; eapply Hinj; simpl; eauto. }
  destruct (f x) as [a|] eqn:E; simpl; [|exact IHl].
  constructor; [|exact IHl]. rewrite in_flat_olist. intros Hin.
  apply in_map_iff in Hin. destruct Hin as [y [Ey Hy]].
  assert (x = y) by (eapply Hinj; simpl; eauto). subst. contradiction.
Qed.

Lemma nodup_app_intro : forall (A : Type) (l1 l2 : list A), NoDup l1 -> NoDup l2 ->
  (forall x, In x l1 -> ~ In x l2) -> NoDup (l1 ++ l2).
Proof.
  induction l1 as [|x l1 IH]; intros l2 H1 H2 Hd; simpl; [exact H2|].
  inversion H1; subst. constructor.
  - intros Hin. apply in_app_or in Hin. destruct Hin; [auto|]. apply (Hd x); simpl; auto.
  - apply IH; auto. intros y Hy. apply Hd. simpl; auto.
Qed.

Lemma sorted_keys_nodup_entries : forall V (m : smap V), StronglySorted slt (sm_keys m) -> NoDup m.
Proof.
  intros V m H. apply sorted_nodup in H. unfold sm_keys in H. apply NoDup_map_inv in H. exact H.
Qed.

Lemma destroy_exact : forall hp h,
  NoDup (flat_map handed h) ->
  (forall a, In a (flat_map handed h) -> h_live hp a = true) ->
  (forall c, In c h -> has_object c) ->
  exists s hp', run h (fresh hp) = Some s /\ destroy s = Some hp' /\
    forall a, h_live hp' a = true <-> h_live hp a = true /\ ~ released (h_matName hp) h a.
Proof.
  intros hp h Hnd Hl Hobj.
  destruct (run_live hp h Hnd Hl Hobj) as [s [Hr Hlive]].
  set (L := (map (m_ptr (st_mgr s)) cleanup_order ++ map snd (m_map (st_mgr s))
              ++ map (fun e => Some (snd e)) (m_mat (st_mgr s)))).
  pose proof (map_sorted _ _ _ Hr) as Hms. pose proof (mat_sorted _ _ _ Hr) as Hts.
  assert (HinF: forall a, In (Some a) (map (m_ptr (st_mgr s)) cleanup_order) <->
                          exists d, m_ptr (st_mgr s) (fld d) = Some a).
  { intros a. rewrite in_map_iff. split.
    - intros [f [E _]]. exists (det f). rewrite fld_det. exact E.
    - intros [d E]. exists (fld d). split; [exact E|apply cleanup_order_all]. }
  assert (HinM: forall a, In (Some a) (map snd (m_map (st_mgr s))) <->
                          exists k, sm_find k (m_map (st_mgr s)) = Some (Some a)).
  { intros a. rewrite in_map_iff. split.
    - intros [[k p] [E Hin]]. simpl in E. subst p. exists k. apply sm_find_some_iff; auto.
    - intros [k E]. apply sm_find_some_iff in E; auto. exists (k, Some a). auto. }
  assert (HinT: forall a, In (Some a) (map (fun e : string * addr => Some (snd e)) (m_mat (st_mgr s))) <->
                          exists n, sm_find n (m_mat (st_mgr s)) = Some a).
  { intros a. rewrite in_map_iff. split.
    - intros [[n b] [E Hin]]. simpl in E. inversion E; subst b. exists n. apply sm_find_some_iff; auto.
    - intros [n E]. apply sm_find_some_iff in E; auto. exists (n, a). auto. }
  assert (HinL: forall a, In (Some a) L <-> (exists d, m_ptr (st_mgr s) (fld d) = Some a) \/
     (exists k, sm_find k (m_map (st_mgr s)) = Some (Some a)) \/
     (exists n, sm_find n (m_mat (st_mgr s)) = Some a)).
  { intros a. unfold L. rewrite !in_app_iff, HinF, HinM, HinT. tauto. }
  assert (HndL: NoDup (flat_map olist L)).
  { unfold L. rewrite !flat_map_app. apply nodup_app_intro; [|apply nodup_app_intro|].
    - apply nodup_flat_olist_map; [apply cleanup_order_nodup|].
      intros f g a _ _ Ef Eg. rewrite <- (fld_det f) in Ef. rewrite <- (fld_det g) in Eg.
      apply (ptr_in_history _ _ _ _ _ Hr) in Ef. apply (ptr_in_history _ _ _ _ _ Hr) in Eg.
      assert (E: CSet (det f) (Some a) = CSet (det g) (Some a))
        by (eapply handed_unique; eauto; simpl; auto).
      inversion E. rewrite <- (fld_det f), <- (fld_det g). congruence.
    - apply nodup_flat_olist_map; [apply sorted_keys_nodup_entries; exact Hms|].
      intros [k p] [k2 p2] a Hi1 Hi2 E1 E2. simpl in E1, E2. subst p p2.
      apply sm_find_some_iff in Hi1; auto. apply sm_find_some_iff in Hi2; auto.
      destruct (map_in_history _ _ _ _ _ Hr Hi1) as [x [Ex Hx]].
      destruct (map_in_history _ _ _ _ _ Hr Hi2) as [y [Ey Hy]].
      inversion Ex; inversion Ey; subst x y.
      assert (E: CGeneric k (Some a) = CGeneric k2 (Some a))
        by (eapply handed_unique; eauto; simpl; auto).
      inversion E; reflexivity.
    - apply nodup_flat_olist_map; [apply sorted_keys_nodup_entries; exact Hts|].
      intros [k p] [k2 p2] a Hi1 Hi2 E1 E2. simpl in E1, E2. inversion E1; inversion E2; subst p p2.
      apply sm_find_some_iff in Hi1; auto. apply sm_find_some_iff in Hi2; auto.
      destruct (mat_in_history _ _ _ _ _ Hr Hi1) as [_ Hx].
      destruct (mat_in_history _ _ _ _ _ Hr Hi2) as [_ Hy]. congruence.
    - intros a H1 H2. rewrite in_flat_olist, HinM in H1. rewrite in_flat_olist, HinT in H2.
      destruct H1 as [k H1]. destruct H2 as [n H2].
      destruct (map_in_history _ _ _ _ _ Hr H1) as [x [Ex Hx]]. inversion Ex; subst x.
      destruct (mat_in_history _ _ _ _ _ Hr H2) as [Hy _].
      assert (E: CGeneric k (Some a) = CMaterial (Some a))
        by (eapply handed_unique; eauto; simpl; auto). discriminate.
    - intros a H1 H2. rewrite in_flat_olist, HinF in H1. destruct H1 as [d H1].
      apply (ptr_in_history _ _ _ _ _ Hr) in H1.
      apply in_app_or in H2. destruct H2 as [H2|H2].
      + rewrite in_flat_olist, HinM in H2. destruct H2 as [k H2].
        destruct (map_in_history _ _ _ _ _ Hr H2) as [x [Ex Hx]]. inversion Ex; subst x.
        assert (E: CSet d (Some a) = CGeneric k (Some a))
          by (eapply handed_unique; eauto; simpl; auto). discriminate.
      + rewrite in_flat_olist, HinT in H2. destruct H2 as [n H2].
        destruct (mat_in_history _ _ _ _ _ Hr H2) as [Hy _].
        assert (E: CSet d (Some a) = CMaterial (Some a))
          by (eapply handed_unique; eauto; simpl; auto). discriminate. }
  assert (HlvL: forall a, In (Some a) L -> h_live (st_heap s) a = true).
  { intros a Ha. apply HinL in Ha. apply Hlive.
    destruct Ha as [[d Ha]|[[k Ha]|[n Ha]]].
    - pose proof (ptr_in_history _ _ _ _ _ Hr Ha) as Hin.
      split; [apply Hl; eapply handed_set; eauto|]. intros [[Q1 Q2]|[k [Q1 Q2]]].
      + assert (E: CSet d (Some a) = CSet TPC (Some a)) by (eapply handed_unique; eauto; simpl; auto).
        inversion E; subst. apply Q2. exact Ha.
      + assert (E: CSet d (Some a) = CGeneric k (Some a)) by (eapply handed_unique; eauto; simpl; auto).
        discriminate.
    - destruct (map_in_history _ _ _ _ _ Hr Ha) as [x [Ex Hin]]. inversion Ex; subst x.
      split; [apply Hl; eapply handed_gen; eauto|]. intros [[Q1 Q2]|[k2 [Q1 Q2]]].
      + assert (E: CGeneric k (Some a) = CSet TPC (Some a)) by (eapply handed_unique; eauto; simpl; auto).
        discriminate.
      + assert (E: CGeneric k (Some a) = CGeneric k2 (Some a)) by (eapply handed_unique; eauto; simpl; auto).
        inversion E; subst. auto.
    - destruct (mat_in_history _ _ _ _ _ Hr Ha) as [Hin _].
      split; [apply Hl; eapply handed_mat; eauto|]. intros [[Q1 Q2]|[k2 [Q1 Q2]]].
      + assert (E: CMaterial (Some a) = CSet TPC (Some a)) by (eapply handed_unique; eauto; simpl; auto).
        discriminate.
      + assert (E: CMaterial (Some a) = CGeneric k2 (Some a)) by (eapply handed_unique; eauto; simpl; auto).
        discriminate. }
  destruct (delete_all_spec L (st_heap s) HndL HlvL) as [hp' [Ed Hd]].
  exists s, hp'. split; [exact Hr|split; [exact Ed|]].
  intros a. rewrite Hd, Hlive, HinL. split.
  - intros [[Ha Hnr] Hnot]. split; [exact Ha|]. intros [[d Hls]|[Q|[[k Q]|[n Q]]]].
    + apply Hnot. left. exists d. destruct (ptr_history _ _ _ Hr d) as [Hlp|[Hno _]].
      * destruct Hls as (h1 & h2 & E1 & N1). destruct Hlp as (g1 & g2 & E2 & N2).
        rewrite E1 in E2.
        assert (Hu: CSet d (Some a) = CSet d (m_ptr (st_mgr s) (fld d))).
        { clear -E2 N1 N2. revert g1 E2. induction h1 as [|x h1 IH]; intros g1 E2.
          - destruct g1 as [|y g1]; simpl in E2; inversion E2; [congruence|].
            exfalso. subst. eapply N1. apply in_or_app. right. left. reflexivity.
          - destruct g1 as [|y g1]; simpl in E2; inversion E2.
            + exfalso. subst. eapply N2. apply in_or_app. right. left. reflexivity.
            + eapply IH; eauto. }
        inversion Hu; auto.
      * exfalso. destruct Hls as (h1 & h2 & -> & _). apply (Hno (Some a)). apply in_or_app. simpl; auto.
    + destruct (option_map (Z.eqb a) (m_ptr (st_mgr s) F_tpc)) as [[]|] eqn:Eb.
      * apply Hnot. left. exists TPC. simpl. destruct (m_ptr (st_mgr s) F_tpc) as [b|]; [|discriminate].
        simpl in Eb. inversion Eb as [Eb']. apply Z.eqb_eq in Eb'. congruence.
      * apply Hnr. left. split; [exact Q|]. intros E. rewrite E in Eb. simpl in Eb.
        rewrite Z.eqb_refl in Eb. discriminate.
      * apply Hnr. left. split; [exact Q|]. intros E. rewrite E in Eb. discriminate.
    + destruct (sm_find k (m_map (st_mgr s))) as [[b|]|] eqn:Ef.
      * destruct (Z.eq_dec b a) as [->|Nb].
        -- apply Hnot. right; left. eauto.
        -- apply Hnr. right. exists k. split; [exact Q|]. congruence.
      * apply Hnr. right. exists k. split; [exact Q|]. congruence.
      * apply Hnr. right. exists k. split; [exact Q|]. congruence.
    + apply Hnot. right; right. exists n.
      destruct (mat_history _ _ _ Hr n) as [(b & Hb & Hf)|[Hno _]].
      * destruct Q as (h1 & h2 & E1 & En & N1). destruct Hb as (g1 & g2 & E2 & Em & N2).
        rewrite E1 in E2.
        assert (Hu: CMaterial (Some a) = CMaterial (Some b)).
        { clear -E2 N1 N2 En Em. revert g1 E2 N2. induction h1 as [|x h1 IH]; intros g1 E2 N2.
          - destruct g1 as [|y g1]; simpl in E2; inversion E2; [congruence|].
            exfalso. subst y. apply (N2 a); simpl; auto.
          - destruct g1 as [|y g1]; simpl in E2; inversion E2.
            + exfalso. subst x. apply (N1 b); simpl; auto.
            + eapply IH; eauto.
              * intros c Hc. apply N1. simpl; auto.
              * intros c Hc. apply N2. simpl; auto. }
        inversion Hu; subst; auto.
      * exfalso. destruct Q as (h1 & h2 & -> & En & _). apply (Hno a); [|exact En].
        apply in_or_app. simpl; auto.
  - intros [Ha Hnrel]. split; [split; [exact Ha|]|].
    + intros [[Q _]|[k [Q _]]]; apply Hnrel; [right; left; exact Q|right; right; left; eauto].
    + intros [[d Q]|[[k Q]|[n Q]]]; apply Hnrel.
      * left. exists d. destruct (ptr_history _ _ _ Hr d) as [Hlp|[_ Hn]]; [|congruence].
        rewrite Q in Hlp. exact Hlp.
      * right; right; left. exists k. destruct (map_in_history _ _ _ _ _ Hr Q) as [x [Ex Hx]].
        inversion Ex; subst; auto.
      * right; right; right. exists n. destruct (mat_history _ _ _ Hr n) as [(b & Hb & Hf)|[_ Hf]].
        -- assert (b = a) by congruence. subst; auto.
        -- congruence.
Qed.
