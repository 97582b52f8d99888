(** Property theorems for C38: whole geometries in files, and C39: loading any file *)
From Coq Require Import ZArith Reals List String Ascii Bool Lia Lra.
From Verif Require Import Base RBase VecModel XmlModel XmlSpec XmlProofs NumModel NumSpec NumProofs HxModel HxSpec HxProofs ParamsModel ParamsSpec
  ParXmlModel ParXmlSpec ParXmlProofs CaloModel CaloSpec CaloXmlModel CaloXmlSpec CaloXmlProofs ZpModel ZpSpec FtdModel FtdSpec
  PadXmlModel PadXmlProofs TrkModel TrkXmlModel TrkXmlSpec TrkXmlProofs TrkXmlProofs2 TrkXmlProofs3 TrkXmlProofs4
  TpcModuleModel TpcModel TpcXmlModel TpcXmlSpec GearXmlModel GearXmlSpec GearXmlProofs GearXmlProofs2 GearXmlProofs3 GearXmlProofs4 GearXmlProofs5 GearXmlProofs6.
From Verif Require PropCaloXml PropTrkXml PropTpcXml TpcSpec RectModel.
Import ListNotations.
Open Scope list_scope.
Open Scope R_scope.

(** A detector with a name, a field, two calorimeters, a vertex detector, a forward tracker, a beam
    telescope, some parameters and a material, every one of which survives on its own: *)
Definition ex_barrel : calo := calo_run (new_barrel 170 200 8 0) PropCaloXml.ex_layers.
Definition ex_params : params := ParamsSpec.after [("radius", VDouble 4); ("turns", VInt 300); ("maker", VString "CERN")]%string.
Definition ex_carbon : smat := mkSM "carbon" 12 6 2 188 381.
Definition ex_calls : list gcall :=
  [SetDetectorName "ILD"; SetBField (mkVec 0 0 4, ParamsSpec.after []);
   SetCalorimeter EcalBarrel (ex_barrel, ParamsSpec.after []); SetCalorimeter Lcal (new_endcap 1 2 3 8 0, ParamsSpec.after []);
   SetLadders VXD (zp_made 1 14 60 125 1 2 [PropTrkXml.ex_ladder 8 15; PropTrkXml.ex_ladder 12 26], ParamsSpec.after []);
   SetFTD (ftd_made [PropTrkXml.ex_disk 1 220; PropTrkXml.ex_disk 2 371], ParamsSpec.after []);
   SetSiPlanes (PropTrkXml.ex_tele, ParamsSpec.after []); SetGearParameters "Coil" ex_params; RegisterMaterial ex_carbon].
Lemma whole : forall z : Z, (Z.abs z < 10 ^ 10)%Z -> kept (IZR z).
Proof. intros z Z. apply whole_kept. exact Z. Qed.
Lemma empty_ok : params_ok (ParamsSpec.after []).
Proof. split; [exists []; reflexivity | exact PropTrkXml.no_params_storable]. Qed.
Lemma words_clean : forall s, In s ["ILD"; "Coil"; "carbon"; "radius"; "turns"; "maker"; "CERN"; "beam_crossing_angle"]%string -> clean_text s.
Proof. intros s H. cbn in H. repeat (destruct H as [<-|H]; [apply plain_clean; reflexivity|]). destruct H. Qed.
Lemma one_entry : forall (V : Type) (f : V -> pval) k k0 (x : V) v, rmap f (lookup_or_throw k [(k0, x)]) = Ok v -> k = k0 /\ v = f x.
Proof. intros V f k k0 x v G. unfold lookup_or_throw in G. cbn [sm_find] in G. destruct (String.eqb_spec k k0) as [->|]; [|discriminate G]. injection G as <-. auto. Qed.
Lemma coil_values : forall t k v, do_get t ex_params k = Ok v ->
  (k = "turns" /\ v = VInt 300) \/ (k = "radius" /\ v = VDouble 4) \/ (k = "maker" /\ v = VString "CERN")%string.
Proof.
  intros t k v G. destruct t; try discriminate G.
  - left. exact (one_entry _ _ _ _ _ _ G).
  - right. left. exact (one_entry _ _ _ _ _ _ G).
  - right. right. exact (one_entry _ _ _ _ _ _ G).
Qed.
Lemma angle_values : forall t k v, do_get t (ParamsSpec.after [("beam_crossing_angle", VDouble 0)]%string) k = Ok v -> k = "beam_crossing_angle"%string /\ v = VDouble 0.
Proof. intros t k v G. destruct t; try discriminate G. exact (one_entry _ _ _ _ _ _ G). Qed.
Lemma coil_ok : params_ok ex_params.
Proof.
  split; [eexists; reflexivity|]. intros t k v G. destruct (coil_values t k v G) as [[-> ->]|[[-> ->]|[-> ->]]].
  - destruct (words_clean "turns") as [A B]; [cbn; tauto|]. split; [exact A|]. split; [exact B|]. unfold text_ok, is_int. lia.
  - destruct (words_clean "radius") as [A B]; [cbn; tauto|]. split; [exact A|]. split; [exact B | exact Logic.I].
  - destruct (words_clean "maker") as [A B]; [cbn; tauto|]. split; [exact A|]. split; [exact B|]. apply words_clean. cbn. tauto.
Qed.
Lemma coil_survives : survive ex_params.
Proof.
  intros t k v G. destruct (coil_values t k v G) as [[-> ->]|[[-> ->]|[-> ->]]].
  - exact Logic.I.
  - apply whole. reflexivity.
  - split; [discriminate|]. split; [|apply words_clean; cbn; tauto]. intros H. apply has_char_iff in H. discriminate H.
Qed.
Lemma angle_ok : params_ok (ParamsSpec.after [("beam_crossing_angle", VDouble 0)]%string) /\ survive (ParamsSpec.after [("beam_crossing_angle", VDouble 0)]%string).
Proof.
  split; [split; [eexists; reflexivity|]|]; intros t k v G; destruct (angle_values t k v G) as [-> ->].
  - destruct (words_clean "beam_crossing_angle") as [A B]; [cbn; tauto|]. split; [exact A|]. split; [exact B | exact Logic.I].
  - apply whole. reflexivity.
Qed.
Lemma came_back_same : forall h, storable (ParamsSpec.after h) -> survive (ParamsSpec.after h) -> came_back (ParamsSpec.after h) (ParamsSpec.after h).
Proof. intros h S V. destruct (params_survive h S) as [text [E [_ I]]]. exists text. split; [exact E | apply I; exact V]. Qed.
Lemma barrel_stays : reload calo_toXML calo_fromXML (ex_barrel, ParamsSpec.after []) = Ok (ex_barrel, ParamsSpec.after []).
Proof.
  destruct PropCaloXml.survivor_case as [GF [DS [KL [I8 [NL [K1 [K2 K3]]]]]]].
  destruct (reload_calo ex_barrel (ParamsSpec.after []) 170 170 0 200 (after_sorted []) (storable_text _ PropTrkXml.no_params_storable) I8 NL eq_refl) as [b2 [z2 [R Z]]].
  cbn in Z. subst z2. rewrite R.
  assert (B : base_calo ex_barrel 170 b2 0 200 = (new_barrel 170 200 8 0, 170)).
  { unfold base_calo, ex_barrel. cbn [c_type calo_run]. unfold kept in *. cbn. rewrite K1, K2, K3. reflexivity. }
  rewrite B. cbn [fst snd]. rewrite (proj2 (layers_back_iff (c_layout ex_barrel) 170)) by auto. reflexivity.
Qed.
Lemma lcal_stays : let p := ParamsSpec.after [("beam_crossing_angle", VDouble 0)]%string in
  reload calo_toXML calo_fromXML (new_endcap 1 2 3 8 0, p) = Ok (new_endcap 1 2 3 8 0, p).
Proof.
  intros p. destruct angle_ok as [[_ AS] AV].
  destruct (reload_calo (new_endcap 1 2 3 8 0) p 1 2 3 3 (after_sorted _) (storable_text _ AS) ltac:(unfold is_int; cbn; lia) ltac:(cbn; lia) eq_refl) as [b2 [z2 [R Z]]].
  cbn in Z. subst b2. rewrite R.
  assert (B : base_calo (new_endcap 1 2 3 8 0) 1 2 3 z2 = (new_endcap 1 2 3 8 0, 3)).
  { unfold base_calo. cbn [c_type new_endcap c_sym c_phi]. rewrite (whole 1), (whole 2), (whole 3), (whole 0) by reflexivity. reflexivity. }
  rewrite B. cbn [fst snd c_layout new_endcap]. rewrite (proj2 (back_same_iff p (after_sorted _)) AV). reflexivity.
Qed.
Example everything_survives : let g := built ex_calls in texts_ok g /\ g_name g <> ""%string /\ (forall s, fits g s) /\ all_survive g.
Proof.
  assert (F : forall s o, g_calo (built ex_calls) s = Some o ->
    (s = EcalBarrel /\ o = (ex_barrel, ParamsSpec.after [])) \/ (s = Lcal /\ o = (new_endcap 1 2 3 8 0, ParamsSpec.after [("beam_crossing_angle", VDouble 0)]%string))).
  { intros [] o H; try discriminate H; injection H as <-; [left; auto | right; split; reflexivity]. }
  assert (Z : forall s o, g_zp (built ex_calls) s = Some o -> o = (zp_made 1 14 60 125 1 2 [PropTrkXml.ex_ladder 8 15; PropTrkXml.ex_ladder 12 26], ParamsSpec.after [])).
  { intros [] o H; try discriminate H; injection H as <-; reflexivity. }
  assert (G : forall k p, sm_find k (g_generic (built ex_calls)) = Some p -> k = "Coil"%string /\ p = ex_params).
  { intros k p H. assert (E : g_generic (built ex_calls) = [("Coil"%string, ex_params)]) by reflexivity. rewrite E in H. cbn [sm_find] in H.
    destruct (String.eqb_spec k "Coil") as [->|]; [injection H as <-; auto | discriminate]. }
  assert (M : forall k m, sm_find k (g_mat (built ex_calls)) = Some m -> k = "carbon"%string /\ m = ex_carbon).
  { intros k m H. assert (E : g_mat (built ex_calls) = [("carbon"%string, ex_carbon)]) by reflexivity. rewrite E in H. cbn [sm_find] in H.
    destruct (String.eqb_spec k "carbon") as [->|]; [injection H as <-; auto | discriminate]. }
  intros g. split; [|split; [discriminate|split]].
  - unfold texts_ok. split; [apply words_clean; cbn; tauto|]. split; [intros o H; injection H as <-; exact empty_ok|]. split; [discriminate|].
    split; [intros s o H; destruct (F s o H) as [[_ ->]|[_ ->]]; [exact empty_ok | apply angle_ok]|].
    split; [intros s o H; rewrite (Z s o H); exact empty_ok|]. split; [intros o H; injection H as <-; exact empty_ok|]. split; [discriminate|].
    split; [intros o H; injection H as <-; exact empty_ok|].
    split; [intros k p H; destruct (G k p H) as [-> ->]; split; [apply words_clean; cbn; tauto | exact coil_ok]|].
    intros k m H. destruct (M k m H) as [-> ->]. apply words_clean. cbn. tauto.
  - intros s o H. destruct (F s o H) as [[-> ->]|[-> ->]]; reflexivity.
  - pose proof PropTrkXml.no_params_storable as S0. pose proof PropTrkXml.no_params_survive as V0. unfold all_survive.
    split; [intros o H; injection H as <-; apply field_survives; [exact S0|]; repeat split; try (apply whole; reflexivity); exact V0|].
    split; [intros o H; discriminate H|].
    split; [intros s o H; destruct (F s o H) as [[_ ->]|[_ ->]]; [exact barrel_stays | exact lcal_stays]|].
    split. { intros s o H. rewrite (Z s o H). apply ladders_survive; [exact S0 | intros a A; apply PropTrkXml.ladder_case; exact A|].
      split; [lia|]. split; [repeat split; apply whole; reflexivity|]. split; [intros a A; apply PropTrkXml.ladder_case; exact A | exact V0]. }
    split. { intros o H. injection H as <-. apply disks_survive; [exact S0 | intros a A; apply PropTrkXml.disk_case; exact A|].
      split; [cbn; lia|]. split; [intros a A; split; apply PropTrkXml.disk_case; exact A | exact V0]. }
    split; [intros o H; discriminate H|].
    split. { intros o H. injection H as <-. destruct PropTrkXml.tele_case as [OK [TY [KL [KS KD]]]]. apply planes_survive; [exact S0 | exact OK|]. split; [left; exact TY|]. split; [exact KL|]. split; [exact KS|]. split; [intros _; exact KD|]. split; [intros X; rewrite TY in X; discriminate X | exact V0]. }
    split. { intros k p H. destruct (G k p H) as [_ ->]. apply came_back_same; [apply coil_ok | exact coil_survives]. }
    intros k m H. destruct (M k m H) as [_ ->]. rewrite material_back by (apply words_clean; cbn; tauto).
    cbn [sm_name sm_A sm_Z sm_density sm_radLength sm_intLength ex_carbon]. unfold reread. rewrite (whole 12), (whole 6), (whole 2), (whole 188), (whole 381) by reflexivity. reflexivity.
Qed.

(** Whatever calls made the manager: it can be saved and the file loaded if and only if every detector in it can be saved and loaded on its own (C34, C36, C37 say when this is so); a detector that cannot be written or read never passes silently. *)
Theorem C38_round_trip : forall h, let g := built h in texts_ok g ->
  ((exists file g', createXMLFile g = Ok file /\ createGearMgr None (Some file) = SOk (Some g') g') <-> all_come_back g).
Proof. exact round_trip. Qed.
Print Assumptions C38_round_trip.

(** Then every slot of the loaded manager holds what came back of the same slot, or is empty as that was, and so with every set of parameters and every material, by name; an unnamed detector is called Unknown. Of the calorimeters a slot holds the last one written whose name and shape lead to it. *)
Theorem C38_slots : forall h file g', let g := built h in texts_ok g -> createXMLFile g = Ok file -> createGearMgr None (Some file) = SOk (Some g') g' ->
  loaded_apart_from_calorimeters g g' /\ calorimeters_loaded g g'.
Proof. exact slots_loaded. Qed.
Print Assumptions C38_slots.

(** If every calorimeter has the shape of its slot, the calorimeters are in their own slots too. *)
Theorem C38_fitting : forall h file g', let g := built h in texts_ok g -> createXMLFile g = Ok file -> createGearMgr None (Some file) = SOk (Some g') g' ->
  (forall s, fits g s) -> forall s, back_in calo_toXML calo_fromXML (g_calo g s) (g_calo g' s).
Proof. exact fitting_loaded. Qed.
Print Assumptions C38_fitting.

(** If moreover everything survives on its own and the detector has a name, saving and loading changes nothing. *)
Theorem C38_unchanged : forall h, let g := built h in texts_ok g -> g_name g <> ""%string -> (forall s, fits g s) -> all_survive g ->
  exists file g', createXMLFile g = Ok file /\ createGearMgr None (Some file) = SOk (Some g') g' /\ same_content g g'.
Proof. exact all_same. Qed.
Print Assumptions C38_unchanged.

(** The same barrel in the endcap slot, and in both. *)
Definition ex_wrong : list gcall := [SetCalorimeter HcalEndcap (ex_barrel, ParamsSpec.after [])].
Definition ex_both : list gcall := [SetCalorimeter HcalBarrel (ex_barrel, ParamsSpec.after []); SetCalorimeter HcalEndcap (ex_barrel, ParamsSpec.after [])].
Lemma barrels_only : forall h, (forall s o, g_calo (built h) s = Some o -> o = (ex_barrel, ParamsSpec.after [])) -> g_name (built h) = ""%string ->
  g_field (built h) = None -> g_tpc (built h) = None -> (forall s, g_zp (built h) s = None) -> g_ftd (built h) = None -> g_tp (built h) = None -> g_si (built h) = None ->
  g_generic (built h) = [] -> g_mat (built h) = [] -> texts_ok (built h) /\ all_come_back (built h).
Proof.
  intros h C A1 A2 A3 A4 A5 A6 A7 A8 A9. unfold texts_ok, all_come_back. rewrite A1, A2, A3, A5, A6, A7, A8, A9. split.
  - split; [apply plain_clean; reflexivity|]. repeat (split; [intros; discriminate|]). split; [intros s o H; rewrite (C s o H); exact empty_ok|].
    split; [intros s o H; rewrite A4 in H; discriminate|]. repeat (split; [intros; discriminate|]). intros; discriminate.
  - repeat split; try exact Logic.I.
    + intros s. destruct (g_calo (built h) s) as [o|] eqn:G; [|exact Logic.I]. rewrite (C s o G). eexists. exact barrel_stays.
    + intros s. rewrite A4. exact Logic.I.
Qed.
Example wrong_shape : texts_ok (built ex_wrong) /\ all_come_back (built ex_wrong) /\ exists o, g_calo (built ex_wrong) HcalEndcap = Some o /\ lands HcalEndcap o = HcalBarrel /\
  g_calo (built ex_wrong) HcalBarrel = None.
Proof.
  destruct (barrels_only ex_wrong) as [A B]; try reflexivity.
  - intros [] o H; try discriminate H; injection H as <-; reflexivity.
  - split; [exact A|]. split; [exact B|]. eexists. repeat split.
Qed.
Example both_shapes : texts_ok (built ex_both) /\ all_come_back (built ex_both) /\ exists o1 o2, g_calo (built ex_both) HcalBarrel = Some o1 /\ g_calo (built ex_both) HcalEndcap = Some o2 /\
  lands HcalBarrel o1 = lands HcalEndcap o2 /\ written_later HcalBarrel HcalEndcap.
Proof.
  destruct (barrels_only ex_both) as [A B]; try reflexivity.
  - intros [] o H; try discriminate H; injection H as <-; reflexivity.
  - split; [exact A|]. split; [exact B|]. eexists. eexists. split; [reflexivity|]. split; [reflexivity|]. split; [reflexivity|].
    exists [EcalBarrel; EcalEndcap; EcalPlug; YokeBarrel; YokeEndcap; YokePlug], [HcalEndcap; HcalRing; Lcal; LHcal; BeamCal]. split; [reflexivity | cbn; auto].
Qed.

(** A calorimeter whose shape is not that of its slot is found in another slot after loading, and its own slot is empty. *)
Theorem C38_shape_refuted : forall h file g' s o, let g := built h in texts_ok g -> createXMLFile g = Ok file -> createGearMgr None (Some file) = SOk (Some g') g' ->
  g_calo g s = Some o -> lands s o <> s -> g_calo g (lands s o) = None ->
  g_calo g' s = None /\ exists y, reload calo_toXML calo_fromXML o = Ok y /\ g_calo g' (lands s o) = Some y.
Proof. exact misfit_moves. Qed.
Print Assumptions C38_shape_refuted.

(** Of two calorimeters of the same shape in a barrel and its endcap slot the one written first is lost. *)
Theorem C38_same_shape_refuted : forall h file g' s t o1 o2, let g := built h in texts_ok g -> createXMLFile g = Ok file -> createGearMgr None (Some file) = SOk (Some g') g' ->
  s <> t -> g_calo g s = Some o1 -> g_calo g t = Some o2 -> lands s o1 = lands t o2 ->
  (written_later s t -> back_in calo_toXML calo_fromXML (Some o2) (g_calo g' (lands t o2))) /\
  g_calo g' (if calo_slot_eqb s (lands s o1) then t else s) = None.
Proof. exact misfit_lost. Qed.
Print Assumptions C38_same_shape_refuted.

(** A manager with tracker planes. *)
Example planes_manager : let g := built [SetTrackerPlanes (PropTrkXml.ex_planes, ParamsSpec.after [])] in texts_ok g /\ g_tp g = Some (PropTrkXml.ex_planes, ParamsSpec.after []) /\ tp_ok PropTrkXml.ex_planes.
Proof.
  split; [|split; [reflexivity | exact PropTrkXml.planes_case]]. unfold texts_ok. cbn [g_name].
  split; [apply plain_clean; reflexivity|]. repeat (split; [intros; discriminate|]). split; [|repeat (split; [intros; discriminate|]); intros; discriminate].
  intros o H. injection H as <-. split; [exact empty_ok|]. apply PropTrkXml.planes_case.
Qed.

(** The file of a manager that has tracker planes is never loaded. *)
Theorem C38_tracker_planes_refuted : forall h o file g', let g := built h in texts_ok g -> g_tp g = Some o -> tp_ok (fst o) -> createXMLFile g = Ok file ->
  createGearMgr None (Some file) <> SOk (Some g') g'.
Proof. exact planes_never_load. Qed.
Print Assumptions C38_tracker_planes_refuted.

(** ** Loading any file *)
Definition ex_file (second : string) : string :=
  "<gear><detectors><detector name=""a"" geartype=""GearParameters""/><detector name=""b"" geartype=""" +++ second +++ """/></detectors></gear>".
(** Two sets of parameters are loaded; *)
Example good_file : createGearMgr None (Some (ex_file "GearParameters")) =
  SOk (Some (built [SetGearParameters "a" params_empty; SetGearParameters "b" params_empty])) (built [SetGearParameters "a" params_empty; SetGearParameters "b" params_empty]).
Proof. vm_compute. reflexivity. Qed.
(** with a slip in the second one the first call throws, *)
Example bad_file : exists e, createGearMgr None (Some (ex_file "GearParameter")) = SThrow (Some (built [SetGearParameters "a" params_empty])) e.
Proof. eexists. vm_compute. reflexivity. Qed.
(** and correcting the file does not help. *)
Example corrected_file : exists e, answers None [Some (ex_file "GearParameter"); Some (ex_file "GearParameters")] =
  [SThrow (Some (built [SetGearParameters "a" params_empty])) e; SOk (Some (built [SetGearParameters "a" params_empty])) (built [SetGearParameters "a" params_empty])].
Proof. eexists. vm_compute. reflexivity. Qed.

(** A first call returns a manager if and only if the file has a root element all of whose parts can be read; the manager is then what the setter calls that the file stands for make of a new manager, in the order of the file. Elements without a type and calorimeters and ladders of unknown names stand for no call. *)
Theorem C39_loaded : forall s g, createGearMgr None (Some s) = SOk (Some g) g <-> exists root cs, root_element s root /\ file_says root cs /\ g = built cs.
Proof. exact loads_iff. Qed.
Print Assumptions C39_loaded.

(** After setter calls every getter answers with the argument of the last call for its slot, or, for materials, of the first call for the name. *)
Theorem C39_getters : forall cs, answers_of cs (built cs).
Proof. exact built_answers. Qed.
Print Assumptions C39_getters.

(** When a first call throws, the reader keeps a manager: that of the calls the file stands for up to the first part that cannot be read. *)
Theorem C39_half : forall file st e, createGearMgr None file = SThrow st e -> exists cs, st = Some (built cs) /\
  (cs = [] \/ exists s root, file = Some s /\ root_element s root /\ says_until_failure root cs).
Proof. exact fails_with. Qed.
Print Assumptions C39_half.

(** Every later call on the same reader, whatever the file is then, returns this half-filled manager without an error. *)
Theorem C39_again_refuted : forall f files st e, createGearMgr None f = SThrow st e -> exists g, st = Some g /\
  answers None (f :: files) = SThrow st e :: map (fun _ => SOk st g) files.
Proof. exact answers_forever. Qed.
Print Assumptions C39_again_refuted.

(** For a file with no root element it is an empty manager. *)
Theorem C39_unreadable_refuted : forall s st e, (forall root, ~ root_element s root) -> createGearMgr None (Some s) = SThrow st e -> st = Some new_content.
Proof. exact unreadable_empty. Qed.
Print Assumptions C39_unreadable_refuted.
