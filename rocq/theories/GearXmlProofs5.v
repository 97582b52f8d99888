(** Proofs about whole geometries in files (C38): the theorems. *)
From Coq Require Import ZArith List String Ascii Bool Reals Lia Lra Sorted.
From Verif Require Import Base BaseProofs RBase VecModel XmlModel XmlSpec XmlProofs XmlProofs3 NumModel NumSpec NumProofs HxModel HxSpec HxProofs
  ParamsModel ParamsSpec ParamsProofs ParXmlModel ParXmlSpec ParXmlProofs CaloModel CaloXmlModel CaloXmlProofs ZpModel FtdModel
  PadXmlModel PadXmlProofs PadXmlProofs2 TrkModel TrkXmlModel TrkXmlSpec TrkXmlProofs TrkXmlProofs2 TrkXmlProofs3 TrkXmlProofs4
  TpcModuleModel TpcModel TpcXmlModel TpcXmlSpec TpcXmlProofs TpcXmlProofs2 GearXmlModel GearXmlSpec GearXmlProofs GearXmlProofs2 GearXmlProofs3 GearXmlProofs4.
Import ListNotations.
Open Scope list_scope.

Lemma file_made : forall g, inv g -> texts_ok g -> all_come_back g -> exists file, createXMLFile g = Ok file.
Proof.
  intros g I T (B1 & B2 & B3 & B4 & B5 & B6). pose proof (generic_clean g I T) as GC. destruct T as (_ & TF & T3 & T4 & T5 & T6 & T7 & T8 & _ & _).
  unfold createXMLFile, geometry_doc.
  assert (F : exists field, (match g_field g with None => Ok [] | Some f => tried (field_toXML f) end) = Ok field).
  { destruct (g_field g) as [[b ps]|]; [|eauto]. rewrite field_element; [cbn [tried]; eauto|]. apply (ok_params ps (TF _ eq_refl)). }
  destruct F as [field ->]. cbn [rbind].
  destruct (slot_written tpc_toXML tpc_fromXML tpc_pairs "TPC" "TPCParameters" (g_tpc g) tpc_pairs_ok) as [tpc ->];
    [intros x X; destruct (T3 x X); apply tpc_good; assumption | exact B1|]. cbn [rbind].
  assert (C : exists l, rall (calo_elem g) calo_order = Ok l).
  { assert (CC : forall s, exists ns, calo_elem g s = Ok ns).
    { intros s. apply (slot_written calo_toXML calo_fromXML []); [apply no_pairs | intros x X; apply calo_good; apply (T4 s x X) | apply B2]. }
    generalize calo_order. intros l. induction l as [|s l [r R]]; [eexists; reflexivity|]. cbn [rall]. destruct (CC s) as [ns ->]. cbn [rbind]. rewrite R.
    eexists. reflexivity. }
  destruct C as [calos ->]. cbn [rbind].
  assert (Z : forall s, exists ns, zp_elem g s = Ok ns).
  { intros s. apply (slot_written zp_toXML zp_fromXML []); [apply no_pairs | intros x X; apply zp_good; apply (T5 s x X) | apply B3]. }
  destruct (Z VXD) as [vxd ->]. cbn [rbind].
  destruct (slot_written ftd_toXML ftd_fromXML [] "FTD" "FTDParameters" (g_ftd g) no_pairs) as [ftd ->];
    [intros x X; apply ftd_good; apply (T6 x X) | exact B4|]. cbn [rbind].
  destruct (Z SIT) as [sit ->]. cbn [rbind]. destruct (Z SET) as [set ->]. cbn [rbind].
  destruct (slot_written tp_toXML tp_fromXML [] "TrackerPlanes" "TrackerPlanesParameters" (g_tp g) no_pairs) as [tp ->];
    [intros x X; apply tp_good; apply (T7 x X) | exact B5|]. cbn [rbind].
  destruct (slot_written si_toXML si_fromXML [] "SiPlanes" "SiPlanesParameters" (g_si g) no_pairs) as [si ->];
    [intros x X; apply si_good; apply (T8 x X) | exact B6|]. cbn [rbind].
  rewrite generic_written by (intros kp K; apply GC; exact K). cbn [rbind]. rewrite mats_written. cbn [rbind rmap]. eexists. reflexivity.
Qed.

Lemma load_create : forall file g, createGearMgr None file = SOk (Some g) g <-> load file = SOk g tt.
Proof.
  intros file g. unfold createGearMgr. destruct (load file) as [g1 []|? ?|]; split; intros H; try discriminate; injection H as ->; reflexivity.
Qed.

Lemma round_trip : forall h, let g := built h in texts_ok g ->
  ((exists file g', createXMLFile g = Ok file /\ createGearMgr None (Some file) = SOk (Some g') g') <-> all_come_back g).
Proof.
  intros h g T. assert (I : inv g) by apply inv_built. split.
  - intros [file [g' [E L]]]. apply load_create in L. apply (file_loads g file I T E) in L. apply L.
  - intros B. destruct (file_made g I T B) as [file E]. exists file, (final g). split; [exact E|]. apply load_create. apply (file_loads g file I T E). auto.
Qed.

Lemma slots_loaded : forall h file g', let g := built h in texts_ok g -> createXMLFile g = Ok file -> createGearMgr None (Some file) = SOk (Some g') g' ->
  loaded_apart_from_calorimeters g g' /\ calorimeters_loaded g g'.
Proof.
  intros h file g' g T E L. assert (I : inv g) by apply inv_built. apply load_create in L. apply (file_loads g file I T E) in L. destruct L as [B ->].
  split; [apply rest_loaded | apply calos_loaded]; assumption.
Qed.

Lemma lands_back : forall s o, lands s o = s \/ (s <> lands s o /\ forall t o', lands t o' = s -> t = s \/ t = lands s o).
Proof.
  intros s o. destruct s; unfold lands at 1 2 4; destruct (c_type (fst o)); try (left; reflexivity); right; (split; [discriminate|]);
    intros t o' H; unfold lands in H; destruct t; destruct (c_type (fst o')); try discriminate H; auto; try (left; reflexivity).
Qed.

Lemma fitting_loaded : forall h file g', let g := built h in texts_ok g -> createXMLFile g = Ok file -> createGearMgr None (Some file) = SOk (Some g') g' ->
  (forall s, fits g s) -> forall s, back_in calo_toXML calo_fromXML (g_calo g s) (g_calo g' s).
Proof.
  intros h file g' g T E L F s. destruct (slots_loaded h file g' T E L) as [_ C]. fold g in C.
  assert (I : inv g) by apply inv_built. pose proof L as L0. apply load_create in L0. apply (file_loads g file I T E) in L0. destruct L0 as [B _].
  destruct B as (_ & B & _). specialize (B s). destruct (g_calo g s) as [o|] eqn:G; cbn [comes_back back_in] in *.
  - destruct B as [y R]. exists y. split; [exact R|]. apply C. exists s, o. split; [exact G|]. split; [apply (F s o G)|]. split; [exact R|].
    intros t' o' [a [b [O IN]]] G' LA. rewrite (F t' o' G') in LA. subst t'. pose proof order_nodup as N. rewrite O in N.
    apply NoDup_remove_2 in N. apply N. apply in_or_app. right. exact IN.
  - destruct (g_calo g' s) as [y|] eqn:G'; [|reflexivity]. apply C in G'. destruct G' as [t [o [Gt [LA _]]]]. rewrite (F t o Gt) in LA. subst t. congruence.
Qed.

(** ** Shapes that do not fit *)
Lemma misfit_moves : forall h file g' s o, let g := built h in texts_ok g -> createXMLFile g = Ok file -> createGearMgr None (Some file) = SOk (Some g') g' ->
  g_calo g s = Some o -> lands s o <> s -> g_calo g (lands s o) = None ->
  g_calo g' s = None /\ exists y, reload calo_toXML calo_fromXML o = Ok y /\ g_calo g' (lands s o) = Some y.
Proof.
  intros h file g' s o g T E L G N G2. destruct (slots_loaded h file g' T E L) as [_ C]. fold g in C.
  assert (I : inv g) by apply inv_built. pose proof L as L0. apply load_create in L0. apply (file_loads g file I T E) in L0. destruct L0 as [B _].
  destruct B as (_ & B & _). specialize (B s). rewrite G in B. destruct B as [y R]. destruct (lands_back s o) as [X|[_ X]]; [contradiction|]. split.
  - destruct (g_calo g' s) as [z|] eqn:G'; [|reflexivity]. apply C in G'. destruct G' as [t [o' [Gt [LA _]]]]. destruct (X t o' LA) as [->| ->]; congruence.
  - exists y. split; [exact R|]. apply C. exists s, o. repeat split; auto. intros t' o' [a [b [O IN]]] G' LA.
    assert (TS : t' = s \/ t' = lands s o).
    { clear -LA X N. destruct s; unfold lands in LA, N, X |- *; destruct (c_type (fst o)), t', (c_type (fst o')); try discriminate LA; try tauto; auto. }
    destruct TS as [->| ->]; [|congruence]. pose proof order_nodup as ND. rewrite O in ND. apply NoDup_remove_2 in ND. apply ND. apply in_or_app. right. exact IN.
Qed.
(** two calorimeters of the same shape in a barrel and in the endcap slot behind it: only one is left *)
Lemma misfit_lost : forall h file g' s t o1 o2, let g := built h in texts_ok g -> createXMLFile g = Ok file -> createGearMgr None (Some file) = SOk (Some g') g' ->
  s <> t -> g_calo g s = Some o1 -> g_calo g t = Some o2 -> lands s o1 = lands t o2 ->
  (written_later s t -> back_in calo_toXML calo_fromXML (Some o2) (g_calo g' (lands t o2))) /\
  g_calo g' (if calo_slot_eqb s (lands s o1) then t else s) = None.
Proof.
  intros h file g' s t o1 o2 g T E L ST G1 G2 LL. destruct (slots_loaded h file g' T E L) as [_ C]. fold g in C.
  assert (I : inv g) by apply inv_built. pose proof L as L0. apply load_create in L0. apply (file_loads g file I T E) in L0. destruct L0 as [B _].
  destruct B as (_ & B & _). 
  assert (W : forall u o, lands u o = lands t o2 -> u = s \/ u = t).
  { clear -LL ST. intros u o H. destruct s, t; try congruence; unfold lands in *; destruct (c_type (fst o1)), (c_type (fst o2)); try discriminate LL;
      destruct u, (c_type (fst o)); try discriminate H; auto. }
  split.
  - intros WL. specialize (B t). rewrite G2 in B. destruct B as [y R]. exists y. split; [exact R|]. apply C. exists t, o2. repeat split; auto.
    intros u o' [a [b [O IN]]] G' LA. destruct WL as [a' [b' [O' IN']]].
    destruct (W u o' LA) as [->| ->].
    + destruct (in_split _ _ IN) as [c [d ->]]. pose proof order_nodup as ND. 
      rewrite O' in O. assert (S1 : saved_order = (a ++ t :: c) ++ s :: d) by (rewrite O', O, <- app_assoc; reflexivity).
      pose proof (split_nodup _ _ _ _ _ _ ND O' S1) as ->. rewrite S1 in ND. rewrite <- app_assoc in ND. cbn [app] in ND. apply NoDup_remove_2 in ND. apply ND.
      apply in_or_app. right. apply in_or_app. right. right. exact IN'.
    + pose proof order_nodup as ND. rewrite O in ND. apply NoDup_remove_2 in ND. apply ND. apply in_or_app. right. exact IN.
  - match goal with |- ?x = None => destruct x as [y|] eqn:G' end; [|reflexivity]. apply C in G'. destruct G' as [u [o [Gu [LA _]]]].
    exfalso. clear -ST G1 G2 LL Gu LA. destruct s, t; try congruence; unfold lands in LL, LA; cbn [calo_slot_eqb] in LA; 
      destruct (c_type (fst o1)) eqn:C1, (c_type (fst o2)) eqn:C2; try discriminate LL; cbn in LA; destruct u, (c_type (fst o)) eqn:C3; try discriminate LA; congruence.
Qed.

(** ** Tracker planes *)
Lemma planes_never_load : forall h o file g', let g := built h in texts_ok g -> g_tp g = Some o -> tp_ok (fst o) -> createXMLFile g = Ok file ->
  createGearMgr None (Some file) <> SOk (Some g') g'.
Proof.
  intros h o file g' g T G O E L. assert (I : inv g) by apply inv_built. apply load_create in L. apply (file_loads g file I T E) in L. destruct L as [(_ & _ & _ & _ & B & _) _].
  rewrite G in B. destruct B as [y R]. destruct o as [t ps]. cbn [fst] in O. destruct T as (_ & _ & _ & _ & _ & _ & T & _). destruct (T _ G) as [[[hp P] S] _]. cbn [snd] in *. subst ps.
  rewrite (tracker_planes_crash t hp S O) in R. discriminate.
Qed.

(** ** Nothing changes *)
Lemma all_same : forall h, let g := built h in texts_ok g -> g_name g <> ""%string -> (forall s, fits g s) -> all_survive g ->
  exists file g', createXMLFile g = Ok file /\ createGearMgr None (Some file) = SOk (Some g') g' /\ same_content g g'.
Proof.
  intros h g T NN F S.
  assert (CB : all_come_back g).
  { destruct S as (S1 & S2 & S3 & S4 & S5 & S6 & S7 & S8 & S9). 
    assert (X : forall {O} (w : O -> result xnode) r o, stays w r o -> comes_back w r o) by (intros O w r [x|] H; cbn; [exists x; apply H; reflexivity | exact Logic.I]).
    repeat split; auto. }
  destruct (proj2 (round_trip h T) CB) as [file [g' [E L]]]. exists file, g'. split; [exact E|]. split; [exact L|].
  destruct (slots_loaded h file g' T E L) as [(L1 & L2 & L3 & L4 & L5 & L6 & L7 & L8 & L9) _]. pose proof (fitting_loaded h file g' T E L F) as L10. fold g in L1, L2, L3, L4, L5, L6, L7, L8, L9, L10.
  destruct S as (S1 & S2 & S3 & S4 & S5 & S6 & S7 & S8 & S9).
  assert (X : forall {O} (w : O -> result xnode) r o o', stays w r o -> back_in w r o o' -> o' = o).
  { intros O w r [x|] o' H1 H2; cbn in H2; [|exact H2]. destruct H2 as [y [R ->]]. rewrite (H1 x eq_refl) in R. congruence. }
  repeat split.
  - rewrite L1. destruct (String.eqb_spec (g_name g) ""); [contradiction | reflexivity].
  - apply (X _ _ _ _ _ S1 L2).
  - apply (X _ _ _ _ _ S2 L3).
  - intros s. apply (X _ _ _ _ _ (S3 s) (L10 s)).
  - intros s. apply (X _ _ _ _ _ (S4 s) (L4 s)).
  - apply (X _ _ _ _ _ S5 L5).
  - apply (X _ _ _ _ _ S6 L6).
  - apply (X _ _ _ _ _ S7 L7).
  - intros k. specialize (L8 k). destruct (sm_find k (g_generic g)) as [p|] eqn:G; [|exact L8]. destruct L8 as [q [[t1 [A B]] ->]].
    destruct (S8 k p G) as [t2 [A2 B2]]. congruence.
  - intros k. specialize (L9 k). destruct (sm_find k (g_mat g)) as [m|] eqn:G; [|exact L9]. cbn [back_in] in L9. destruct L9 as [y [R ->]]. rewrite (S9 k m G) in R. congruence.
Qed.
