(** Proofs about the TPC description: nearest module and pad, copying, pad index order. *)
From Coq Require Import ZArith List String Bool Reals Lra Lia.
From Verif Require Import Base RBase DiskBase FpsModel FpaModel VdModel TpcModuleModel TpcModel TpcSpec TpcModuleProofs TpcProofs.
From Verif Require RectModel RectProofs5.
Import ListNotations.
Open Scope R_scope.

(** ** nearest module *)
Lemma near_scan_min : forall h c0 c1 d v pre best,
  (forall a, In a v -> getDistanceToModule (h a) c0 c1 = Ok (d a)) ->
  first_min d pre best ->
  exists a, near_scan h c0 c1 v best (d best) = Ok a /\ first_min d (pre ++ v) a.
Proof.
  intros h c0 c1 d v. induction v as [|x v IH]; intros pre best H F; cbn [near_scan].
  - exists best. rewrite app_nil_r. auto.
  - rewrite (H x (or_introl eq_refl)). cbn [rbind].
    assert (H' : forall a, In a v -> getDistanceToModule (h a) c0 c1 = Ok (d a)) by (intros a A; apply H; right; auto).
    destruct F as (l1 & l2 & E & F1 & F2).
    destruct (Rltb_spec (d x) (d best)) as [L|L].
    + destruct (IH (pre ++ [x]) x H') as (a & A & B).
      { exists pre, []. split; [reflexivity|split; [|intros y []]]. intros y Hy. rewrite E in Hy.
        apply in_app_iff in Hy. destruct Hy as [Hy|[<-|Hy]]; [specialize (F1 y Hy)| |specialize (F2 y Hy)]; lra. }
      rewrite <- app_assoc in B. cbn [List.app] in B. eauto.
    + destruct (IH (pre ++ [x]) best H') as (a & A & B).
      { exists l1, (l2 ++ [x]). split; [rewrite E, <- app_assoc; reflexivity|split; [exact F1|]].
        intros y Hy. apply in_app_iff in Hy. destruct Hy as [Hy|[<-|[]]]; [now apply F2|exact L]. }
      rewrite <- app_assoc in B. cbn [List.app] in B. eauto.
Qed.
Lemma nearest_in_min : forall h c0 c1 d v, v <> [] ->
  (forall a, In a v -> getDistanceToModule (h a) c0 c1 = Ok (d a)) ->
  exists a, nearest_in h c0 c1 v = Ok a /\ first_min d v a.
Proof.
  intros h c0 c1 d [|x v] N H; [congruence|]. unfold nearest_in. rewrite (H x (or_introl eq_refl)). cbn [rbind near_scan].
  rewrite (H x (or_introl eq_refl)). cbn [rbind]. destruct (Rltb_spec (d x) (d x)); [lra|].
  destruct (near_scan_min h c0 c1 d v [x] x) as (a & A & B).
  - intros a A. apply H. right. exact A.
  - exists [], []. split; [reflexivity|split; intros y []].
  - eauto.
Qed.
Lemma nearest_module : forall w c0 c1 d,
  (forall a, In a (getModules (w_tpc w)) -> getDistanceToModule (w_heap w a) c0 c1 = Ok (d a)) ->
  (getModules (w_tpc w) <> [] -> exists a, getNearestModule (w_heap w) (w_tpc w) c0 c1 = Ok a /\
     first_min d (getModules (w_tpc w)) a) /\
  (getModules (w_tpc w) = [] -> exists e, getNearestModule (w_heap w) (w_tpc w) c0 c1 = Throw (EGear e)).
Proof.
  intros w c0 c1 d H. unfold getNearestModule, getModules in *. split.
  - intros N. now apply nearest_in_min.
  - intros ->. eexists. reflexivity.
Qed.

(** ** nearest pad *)
Lemma pad_scan_min : forall fuel h c0 c1 p d v pre best,
  (forall a, In a v -> module_getNearestPad fuel (h a) c0 c1 = Some (Ok (p a)) /\
                       module_getDistanceToPad (h a) c0 c1 (p a) = Ok (d a)) ->
  first_min d pre best ->
  exists a, pad_scan fuel h c0 c1 v (mkG (p best) (getModuleID (h best))) (d best) =
            Some (Ok (mkG (p a) (getModuleID (h a)))) /\ first_min d (pre ++ v) a.
Proof.
  intros fuel h c0 c1 p d v. induction v as [|x v IH]; intros pre best H F; cbn [pad_scan].
  - exists best. rewrite app_nil_r. auto.
  - destruct (H x (or_introl eq_refl)) as [H1 H2]. unfold pad_and_distance. rewrite H1. cbn [obind]. rewrite H2.
    cbn [rmap obind fst snd].
    assert (H' : forall a, In a v -> module_getNearestPad fuel (h a) c0 c1 = Some (Ok (p a)) /\
                       module_getDistanceToPad (h a) c0 c1 (p a) = Ok (d a)) by (intros a A; apply H; right; auto).
    destruct F as (l1 & l2 & E & F1 & F2).
    destruct (Rltb_spec (d x) (d best)) as [L|L].
    + destruct (IH (pre ++ [x]) x H') as (a & A & B).
      { exists pre, []. split; [reflexivity|split; [|intros y []]]. intros y Hy. rewrite E in Hy.
        apply in_app_iff in Hy. destruct Hy as [Hy|[<-|Hy]]; [specialize (F1 y Hy)| |specialize (F2 y Hy)]; lra. }
      rewrite <- app_assoc in B. cbn [List.app] in B. eauto.
    + destruct (IH (pre ++ [x]) best H') as (a & A & B).
      { exists l1, (l2 ++ [x]). split; [rewrite E, <- app_assoc; reflexivity|split; [exact F1|]].
        intros y Hy. apply in_app_iff in Hy. destruct Hy as [Hy|[<-|[]]]; [now apply F2|exact L]. }
      rewrite <- app_assoc in B. cbn [List.app] in B. eauto.
Qed.
Lemma nearest_pad_list : forall h fuel c0 c1 p d v,
  (forall a, In a v -> module_getNearestPad fuel (h a) c0 c1 = Some (Ok (p a)) /\ module_getDistanceToPad (h a) c0 c1 (p a) = Ok (d a)) ->
  (v <> [] -> exists a, nearest_pad_in fuel h c0 c1 v = Some (Ok (mkG (p a) (getModuleID (h a)))) /\ first_min d v a) /\
  (v = [] -> exists e, nearest_pad_in fuel h c0 c1 v = Some (Throw (EGear e))).
Proof.
  intros h fuel c0 c1 p d v0 H. split.
  - intros N. destruct v0 as [|x [|y v]]; [congruence| |].
    + destruct (H x (or_introl eq_refl)) as [H1 H2]. unfold nearest_pad_in. rewrite H1. cbn [obind].
      exists x. split; [reflexivity|]. exists [], []. split; [reflexivity|split; intros z []].
    + destruct (H x (or_introl eq_refl)) as [H1 H2]. unfold nearest_pad_in. unfold pad_and_distance at 1. rewrite H1.
      cbn [obind]. rewrite H2. cbn [rmap obind fst snd].
      destruct (pad_scan_min fuel h c0 c1 p d (y :: v) [x] x) as (a & A & B).
      * intros a A. apply H. right. exact A.
      * exists [], []. split; [reflexivity|split; intros z []].
      * eauto.
  - intros ->. eexists. reflexivity.
Qed.
Lemma nearest_pad : forall w fuel c0 c1 p d,
  (forall a, In a (getModules (w_tpc w)) -> module_getNearestPad fuel (w_heap w a) c0 c1 = Some (Ok (p a)) /\
     module_getDistanceToPad (w_heap w a) c0 c1 (p a) = Ok (d a)) ->
  (getModules (w_tpc w) <> [] -> exists a,
     getNearestPad fuel (w_heap w) (w_tpc w) c0 c1 = Some (Ok (mkG (p a) (getModuleID (w_heap w a)))) /\
     first_min d (getModules (w_tpc w)) a) /\
  (getModules (w_tpc w) = [] -> exists e, getNearestPad fuel (w_heap w) (w_tpc w) c0 c1 = Some (Throw (EGear e))).
Proof. intros w fuel c0 c1 p d H. exact (nearest_pad_list (w_heap w) fuel c0 c1 p d (getModules (w_tpc w)) H). Qed.

(** ** inside *)
Lemma inside_any : forall w fuel c0 c1,
  (forall b, (forall a, In a (getModules (w_tpc w)) -> TpcModuleModel.isInsideModule (w_heap w a) c0 c1 = Ok (b a)) ->
     isInsideModule (w_heap w) (w_tpc w) c0 c1 = Ok (existsb b (getModules (w_tpc w)))) /\
  (forall b, (forall a, In a (getModules (w_tpc w)) -> module_isInsideAnyPad fuel (w_heap w a) c0 c1 = Some (Ok (b a))) ->
     isInsidePad fuel (w_heap w) (w_tpc w) c0 c1 = Some (Ok (existsb b (getModules (w_tpc w))))).
Proof.
  intros w fuel c0 c1. unfold isInsideModule, isInsidePad, getModules.
  generalize (t_mods (w_tpc w)) as v. intros v. split; intros b; induction v as [|x v IH]; intros H;
    cbn [inside_in inside_pad_in existsb]; try reflexivity.
  - rewrite (H x (or_introl eq_refl)). cbn [rbind]. destruct (b x); cbn [orb]; [reflexivity|].
    apply IH. intros a A. apply H. right. exact A.
  - rewrite (H x (or_introl eq_refl)). cbn [obind]. destruct (b x); cbn [orb]; [reflexivity|].
    apply IH. intros a A. apply H. right. exact A.
Qed.

(** The calls with a z coordinate look at the modules of one side only. *)
Lemma sides : forall w, tpc_still w -> exists cath,
  ((forall a, In a (getModules (w_tpc w)) -> getZPosition (w_heap w a) <> None) ->
   cath = cathode_of (hd None (zs (w_heap w) (filter (on_negative (w_heap w)) (getModules (w_tpc w)))))
                     (hd None (zs (w_heap w) (filter (on_positive (w_heap w)) (getModules (w_tpc w)))))
                     (getMaxDriftLength (w_tpc w))) /\
  forall c0 c1 z, let side := filter (if Rleb z cath then on_negative (w_heap w) else on_positive (w_heap w)) (getModules (w_tpc w)) in
    (side = [] -> exists e, getNearestModule3 (w_heap w) (w_tpc w) c0 c1 z = Throw (EGear e)) /\
    (forall d, side <> [] -> (forall a, In a side -> getDistanceToModule (w_heap w a) c0 c1 = Ok (d a)) ->
       exists a, getNearestModule3 (w_heap w) (w_tpc w) c0 c1 z = Ok a /\ first_min d side a) /\
    (forall b, (forall a, In a side -> TpcModuleModel.isInsideModule (w_heap w a) c0 c1 = Ok (b a)) ->
       isInsideModule3 (w_heap w) (w_tpc w) c0 c1 z = Ok (existsb b side)) /\
    (forall fuel b, (forall a, In a side -> module_isInsideAnyPad fuel (w_heap w a) c0 c1 = Some (Ok (b a))) ->
       isInsidePad3 fuel (w_heap w) (w_tpc w) c0 c1 z = Some (Ok (existsb b side))) /\
    (forall fuel, side = [] -> exists e, getNearestPad3 fuel (w_heap w) (w_tpc w) c0 c1 z = Some (Throw (EGear e))) /\
    (forall fuel p d, side <> [] -> (forall a, In a side -> module_getNearestPad fuel (w_heap w a) c0 c1 = Some (Ok (p a)) /\
         module_getDistanceToPad (w_heap w a) c0 c1 (p a) = Ok (d a)) ->
       exists a, getNearestPad3 fuel (w_heap w) (w_tpc w) c0 c1 z = Some (Ok (mkG (p a) (getModuleID (w_heap w a)))) /\ first_min d side a).
Proof.
  intros w H. destruct (halves w H) as (cath & C & Hf). exists cath. split; [exact C|].
  intros c0 c1 z side. unfold getNearestModule3, isInsideModule3, isInsidePad3, getNearestPad3. rewrite (Hf z). fold side.
  split; [|split; [|split; [|split; [|split]]]].
  - intros ->. eexists. reflexivity.
  - intros d N D. now apply nearest_in_min.
  - intros b B. clearbody side. induction side as [|x v IH]; cbn [inside_in existsb]; [reflexivity|].
    rewrite (B x (or_introl eq_refl)). cbn [rbind]. destruct (b x); cbn [orb]; [reflexivity|].
    apply IH. intros a A. apply B. right. exact A.
  - intros fuel b B. clearbody side. induction side as [|x v IH]; cbn [inside_pad_in existsb]; [reflexivity|].
    rewrite (B x (or_introl eq_refl)). cbn [obind]. destruct (b x); cbn [orb]; [reflexivity|].
    apply IH. intros a A. apply B. right. exact A.
  - intros fuel ->. eexists. reflexivity.
  - intros fuel p d N D. now apply nearest_pad_list.
Qed.

(** ** copying *)
Lemma copy_never : forall fuel h next this right, copy_and_assign fuel h next this right = None.
Proof.
  induction fuel as [|f IH]; intros; cbn [copy_and_assign]; [reflexivity|].
  destruct (copy_loop h next (t_mods right) this) as [[h' n'] t']. apply IH.
Qed.
Lemma copy_tpc_never : forall fuel h next right, copy_tpc fuel h next right = None.
Proof. intros. apply copy_never. Qed.
Lemma assign_tpc_never : forall fuel h next this right, assign_tpc fuel h next this right = None.
Proof. intros. apply copy_never. Qed.

(** a clone of a module answers as the module does *)
Lemma lay_clone_same : forall p, lay_type (lay_clone p) = lay_type p /\ lay_extent (lay_clone p) = lay_extent p /\
  (forall fuel c0 c1, lay_nearest fuel (lay_clone p) c0 c1 = lay_nearest fuel p c0 c1) /\
  (forall c0 c1 i, lay_inside (lay_clone p) c0 c1 i = lay_inside p c0 c1 i) /\
  (forall c0 c1 i, lay_distance (lay_clone p) c0 c1 i = lay_distance p c0 c1 i) /\
  (forall i, lay_center (lay_clone p) i = lay_center p i).
Proof.
  destruct p as [l|l|l|l]; [|repeat split; intros; reflexivity..].
  destruct (RectProofs5.rect_clone_same l) as (_ & _ & _ & _ & _ & _ & _ & _ & C & _ & _ & N & _ & _ & I & _ & D).
  cbn [lay_clone lay_type lay_extent lay_nearest lay_inside lay_distance lay_center].
  split; [reflexivity|split; [reflexivity|split; [exact N|split; [exact I|split; [exact D|exact C]]]]].
Qed.
Lemma module_clone_same : forall m, let c := module_clone m in
  (getModuleID c = getModuleID m /\ getTPCCoordinateType c = getTPCCoordinateType m /\ getOffset c = getOffset m /\
   getAngle c = getAngle m /\ getBorderWidth c = getBorderWidth m /\ getZPosition c = getZPosition m /\
   TpcModuleModel.getReadoutFrequency c = TpcModuleModel.getReadoutFrequency m /\
   getModuleExtent c = getModuleExtent m /\ getLocalModuleExtent c = getLocalModuleExtent m /\
   module_getPlaneExtent c = module_getPlaneExtent m) /\
  (forall a b, globalToLocal c a b = globalToLocal m a b) /\ (forall a b, localToGlobal c a b = localToGlobal m a b) /\
  (forall i, module_getPadCenter c i = module_getPadCenter m i) /\
  (forall fuel a b, module_getNearestPad fuel c a b = module_getNearestPad fuel m a b) /\
  (forall a b i, module_isInsidePad c a b i = module_isInsidePad m a b i) /\
  (forall fuel a b, module_isInsideAnyPad fuel c a b = module_isInsideAnyPad fuel m a b) /\
  (forall a b, TpcModuleModel.isInsideModule c a b = TpcModuleModel.isInsideModule m a b) /\
  (forall a b i, module_getDistanceToPad c a b i = module_getDistanceToPad m a b i) /\
  (forall a b, getDistanceToModule c a b = getDistanceToModule m a b).
Proof.
  intros m c. destruct (lay_clone_same (m_layout m)) as (T & E & N & I & D & C).
  assert (G : forall a b, globalToLocal c a b = globalToLocal m a b).
  { intros. unfold c, module_clone, globalToLocal.
    cbn [m_lig m_type m_z m_layout m_offc0 m_offc1 m_angle m_cos m_sin]. rewrite T. reflexivity. }
  assert (L : forall a b, localToGlobal c a b = localToGlobal m a b).
  { intros. unfold c, module_clone, localToGlobal.
    cbn [m_lig m_type m_z m_layout m_offc0 m_offc1 m_angle m_cos m_sin]. rewrite T. reflexivity. }
  assert (W : forall a, wrap_local c a = wrap_local m a).
  { intros. unfold c, module_clone, wrap_local. cbn [m_layout m_localExtent]. rewrite T. reflexivity. }
  assert (ML : m_layout c = lay_clone (m_layout m)) by reflexivity.
  split; [unfold c; repeat split|]. split; [exact G|split; [exact L|]].
  split. { intros i. unfold module_getPadCenter. rewrite ML, C. destruct (lay_center (m_layout m) i); cbn; auto. }
  split. { intros. unfold module_getNearestPad. rewrite G, ML. destruct (globalToLocal m a b); cbn; auto. }
  split. { intros. unfold module_isInsidePad. rewrite G, ML. destruct (globalToLocal m a b); cbn; auto. }
  split. { intros. unfold module_isInsideAnyPad. rewrite G, ML. destruct (globalToLocal m a b); cbn [obind]; auto.
           rewrite W, N. destruct (lay_nearest fuel (m_layout m) (fst a0) (wrap_local m (snd a0))) as [[i|e|]|]; cbn [obind]; auto.
           now rewrite I. }
  split. { intros. unfold TpcModuleModel.isInsideModule. rewrite G. destruct (globalToLocal m a b); cbn [rmap]; auto. rewrite W. reflexivity. }
  split. { intros. unfold module_getDistanceToPad. rewrite G, ML. destruct (globalToLocal m a b); cbn; auto. }
  intros. unfold getDistanceToModule. rewrite G. destruct (globalToLocal m a b); cbn [rmap]; auto. rewrite W, ML, T. reflexivity.
Qed.

(** ** pad index order *)
Lemma gpi_order : 
  (forall a, gpi_lt a a = false) /\
  (forall a b c, gpi_lt a b = true -> gpi_lt b c = true -> gpi_lt a c = true) /\
  (forall a b, gpi_lt a b = true \/ gpi_eq a b = true \/ gpi_lt b a = true) /\
  (forall a b, gpi_lt a b = true -> gpi_eq a b = false /\ gpi_lt b a = false) /\
  (forall a b, gpi_eq a b = true <-> a = b) /\
  (forall a b, gpi_lt a b = true <-> (g_mod a < g_mod b)%Z \/ (g_mod a = g_mod b /\ (g_pad a < g_pad b)%Z)).
Proof.
  assert (LT : forall a b, gpi_lt a b = true <-> (g_mod a < g_mod b)%Z \/ (g_mod a = g_mod b /\ (g_pad a < g_pad b)%Z)).
  { intros a b. unfold gpi_lt. destruct (Z.eqb_spec (g_mod a) (g_mod b)); rewrite Z.ltb_lt; lia. }
  assert (EQ : forall a b, gpi_eq a b = true <-> a = b).
  { intros [p m] [p' m']. unfold gpi_eq. cbn. rewrite andb_true_iff, !Z.eqb_eq. split; [intros [-> ->]; auto|intros E; now injection E]. }
  assert (NT : forall a b, gpi_lt a b = false <-> ~ ((g_mod a < g_mod b)%Z \/ (g_mod a = g_mod b /\ (g_pad a < g_pad b)%Z))).
  { intros a b. rewrite <- LT. destruct (gpi_lt a b); split; congruence || (intros X; exfalso; apply X; reflexivity). }
  split; [|split; [|split; [|split; [|split; [exact EQ|exact LT]]]]].
  - intros a. rewrite NT. lia.
  - intros a b c. rewrite !LT. lia.
  - intros [p m] [p' m']. rewrite !LT, EQ. cbn.
    destruct (Z.lt_trichotomy m m') as [|[->|]]; [left; lia| |right; right; lia].
    destruct (Z.lt_trichotomy p p') as [|[->|]]; [left; lia|right; left; auto|right; right; lia].
  - intros a b H. rewrite NT. split.
    + destruct (gpi_eq a b) eqn:E; [|reflexivity]. apply EQ in E. subst. apply LT in H. lia.
    + apply LT in H. lia.
Qed.
