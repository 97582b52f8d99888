(** Property theorems for C83: copies of copies *)
From Coq Require Import ZArith Reals List String Ascii Bool Lia Lra.
From Verif Require Import Base RBase VecModel XmlModel XmlSpec XmlProofs NumModel NumSpec NumProofs HxModel HxSpec HxProofs ParamsModel ParamsSpec
  ParXmlModel ParXmlSpec ParXmlProofs CaloModel CaloSpec CaloXmlModel CaloXmlSpec CaloXmlProofs ZpModel ZpSpec FtdModel FtdSpec DiskSpec FpsModel
  PadXmlModel TrkModel TrkXmlModel TrkXmlSpec TrkXmlProofs TrkXmlProofs2 TrkXmlProofs3 TrkXmlProofs4
  TpcModuleModel TpcModel TpcXmlModel TpcXmlSpec GearXmlModel GearXmlSpec GearXmlProofs GearXmlProofs5 CopySpec CopyProofs CopyProofs2 CopyProofs3 CopyProofs4.
From Verif Require PropCaloXml PropTrkXml PropPadXml PropGearXml.
Import ListNotations.
Open Scope R_scope.

Lemma whole_normal : forall z : Z, (Z.abs z < 10 ^ 10)%Z -> normal (IZR z).
Proof.
  intros z Z. destruct (Z.eq_dec z 0) as [->|N]; [left; reflexivity|]. right. rewrite <- abs_IZR.
  assert (L : powerRZ 2 (-1000) <= powerRZ 2 0) by (apply pow2_le; lia). assert (U : powerRZ 2 40 <= powerRZ 2 1000) by (apply pow2_le; lia).
  change (powerRZ 2 0) with 1 in L. assert (E : powerRZ 2 40 = 1099511627776) by (change (powerRZ 2 40) with (2 ^ 40); ring). rewrite E in U.
  assert (A : (1 <= Z.abs z)%Z) by lia. apply IZR_le in A. change (10 ^ 10)%Z with 10000000000%Z in Z. apply IZR_lt in Z. lra.
Qed.
Lemma stays_settles : forall {O} (w : O -> result xnode) r o, stays w r o -> slot_settles w r o.
Proof. intros O w r o S x X y R. rewrite (S x X) in R. injection R as <-. apply S. exact X. Qed.
(** The detector of C38, but its field is a number of more than ten digits, so that the first copy differs. *)
Definition ex_odd (x : R) : list gcall := PropGearXml.ex_calls ++ [SetBField (mkVec 0 0 x, ParamsSpec.after [])].
Lemma odd_settles : forall h x, normal x -> ~ kept x -> texts_ok (GearXmlModel.built h) -> all_survive (GearXmlModel.built h) ->
  (forall k p, sm_find k (g_generic (GearXmlModel.built h)) = Some p -> ordinary_params p) ->
  let g := GearXmlModel.built (h ++ [SetBField (mkVec 0 0 x, ParamsSpec.after [])]) in
  texts_ok g /\ all_settle g /\ exists file g1, createXMLFile g = Ok file /\ createGearMgr None (Some file) = SOk (Some g1) g1 /\ ~ same_content g g1.
Proof.
  intros h x N L (T1 & T2 & T3 & T4 & T5 & T6 & T7 & T8 & T9 & T10) (S1 & S2 & S3 & S4 & S5 & S6 & S7 & S8 & S9) GP g.
  assert (G0 : g = set_field (GearXmlModel.built h) (mkVec 0 0 x, ParamsSpec.after [])) by (unfold g, GearXmlModel.built; rewrite fold_left_app; reflexivity).
  set (g0 := GearXmlModel.built h) in *. clearbody g0.
  assert (T : texts_ok g).
  { rewrite G0. split; [exact T1|]. split; [intros o H; injection H as <-; exact PropGearXml.empty_ok|]. split; [exact T3|]. split; [exact T4|]. split; [exact T5|].
    split; [exact T6|]. split; [exact T7|]. split; [exact T8|]. split; [exact T9 | exact T10]. }
  assert (FS : settles field_toXML field_fromXML (mkVec 0 0 x, ParamsSpec.after [])).
  { apply field_settles; [exact PropTrkXml.no_params_storable | intros t k v G; destruct t; discriminate | left; reflexivity | left; reflexivity | exact N]. }
  split; [exact T|]. split.
  - rewrite G0. split; [intros o H; injection H as <-; exact FS|]. split; [apply stays_settles; exact S2|]. split; [intros s; apply stays_settles; apply S3|].
    split; [intros s; apply stays_settles; apply S4|]. split; [apply stays_settles; exact S5|]. split; [apply stays_settles; exact S6|].
    split; [apply stays_settles; exact S7|]. split; [exact GP | intros k; apply stays_settles; intros m M; apply (S9 k m M)].
  - assert (B : all_come_back g).
    { assert (X : forall {O} (w : O -> result xnode) r o, stays w r o -> comes_back w r o) by (intros O w r [z|] H; cbn; [exists z; apply H; reflexivity | exact Logic.I]).
      rewrite G0. split; [apply X; exact S2|]. split; [intros s; apply X; apply S3|]. split; [intros s; apply X; apply S4|]. split; [apply X; exact S5|]. split; [apply X; exact S6 | apply X; exact S7]. }
    destruct (proj2 (round_trip _ T) B) as [file [g1 [C Ld]]]. exists file, g1. split; [exact C|]. split; [exact Ld|]. intros (_ & E & _).
    destruct (slots_loaded _ file g1 T C Ld) as [(_ & F & _) _]. fold g in F. rewrite G0 in E, F. cbn [g_field set_field back_in] in E, F. destruct F as [y [R F]]. rewrite F in E. injection E as ->.
    rewrite reload_field in R by (try apply (after_sorted []); apply storable_text; exact PropTrkXml.no_params_storable).
    apply L. apply (f_equal (fun r => match r with Ok o => vz (fst o) | _ => 0 end)) in R. exact R.
Qed.
Lemma coil_ordinary : ordinary_params PropGearXml.ex_params.
Proof.
  intros t k v V. destruct (PropGearXml.coil_values t k v V) as [[_ ->]|[[_ ->]|[_ ->]]]; [exact Logic.I | apply (whole_normal 4); reflexivity | exact Logic.I].
Qed.
Lemma coil_only : forall k p, sm_find k (g_generic (GearXmlModel.built PropGearXml.ex_calls)) = Some p -> ordinary_params p.
Proof.
  intros k p G. assert (E : g_generic (GearXmlModel.built PropGearXml.ex_calls) = [("Coil"%string, PropGearXml.ex_params)]) by reflexivity. rewrite E in G. cbn [sm_find] in G.
  destruct (String.eqb_spec k "Coil") as [->|]; [injection G as <-; exact coil_ordinary | discriminate].
Qed.
Example settles_case : exists x, ~ kept x /\ let g := GearXmlModel.built (ex_odd x) in
  texts_ok g /\ all_settle g /\ exists file g1, createXMLFile g = Ok file /\ createGearMgr None (Some file) = SOk (Some g1) g1 /\ ~ same_content g g1.
Proof.
  destruct lossy as [x [_ [N L]]]. exists x. split; [exact L|]. destruct PropGearXml.everything_survives as [T [_ [_ S]]].
  exact (odd_settles PropGearXml.ex_calls x N L T S coil_only).
Qed.

(** Whatever calls made the manager: if all of its texts can be written and each of its parts settles on its own (see below), the first copy is the last change: the manager loaded from its file is saved to a file from which the same geometry is loaded, and all further files are identical. *)
Theorem C83_settled : forall h file g1, let g := GearXmlModel.built h in texts_ok g -> all_settle g ->
  createXMLFile g = Ok file -> createGearMgr None (Some file) = SOk (Some g1) g1 ->
  exists file1 g2, createXMLFile g1 = Ok file1 /\ createGearMgr None (Some file1) = SOk (Some g2) g2 /\ same_content g1 g2 /\ createXMLFile g2 = Ok file1.
Proof. exact settled_file. Qed.
Print Assumptions C83_settled.

Example params_case : ordinary_params PropGearXml.ex_params /\ storable PropGearXml.ex_params.
Proof. split; [exact coil_ordinary | apply PropGearXml.coil_ok]. Qed.
(** Parameters set by any calls settle: what is loaded from their file is saved and loaded unchanged. *)
Theorem C83_parameters : forall h q, storable (ParamsSpec.after h) -> ordinary_params (ParamsSpec.after h) -> came_back (ParamsSpec.after h) q -> came_back q q.
Proof.
  intros h q S O [text [W R]]. pose proof (after_sorted h) as SP. pose proof (storable_text _ S) as TP.
  destruct (save_load _ SP TP) as [text' [W' R']]. rewrite W in W'. injection W' as <-. rewrite R in R'. injection R' as ->.
  destruct (save_load (back (ParamsSpec.after h)) (back_sorted _ SP) (storable_text _ (back_storable _ SP S))) as [text2 [W2 R2]]. exists text2. split; [exact W2|].
  rewrite R2, back_back by assumption. reflexivity.
Qed.
Print Assumptions C83_parameters.

Example numbers_case : normal 0 /\ normal (-2) /\ normal 188.
Proof. split; [|split]; apply whole_normal; reflexivity. Qed.
(** So do fields and materials, *)
Theorem C83_field : forall b hp, storable (ParamsSpec.after hp) -> ordinary_params (ParamsSpec.after hp) -> normal (vx b) -> normal (vy b) -> normal (vz b) ->
  settles field_toXML field_fromXML (b, ParamsSpec.after hp).
Proof. exact field_settles. Qed.
Print Assumptions C83_field.
Theorem C83_material : forall m, clean_text (sm_name m) -> ordinary_material m -> settles smat_toXML smat_fromXML m.
Proof. exact material_settles. Qed.
Print Assumptions C83_material.

Example ladder_case : forall a, In a [PropTrkXml.ex_ladder 8 15; PropTrkXml.ex_ladder 12 26] -> ordinary_ladders a.
Proof.
  intros a [<-|[<-|[]]]; (split; [unfold is_int; cbn; lia|]); unfold PropTrkXml.ex_ladder, ordinary_part; cbn [za_phi0 za_lad za_sen q_d q_off q_t q_len q_w q_rad];
    [replace (15 + 1) with 16 by lra | replace (26 + 1) with 27 by lra]; repeat split; apply whole_normal; reflexivity.
Qed.
Example disk_case : forall a, In a [PropTrkXml.ex_disk 1 220; PropTrkXml.ex_disk 2 371] -> ordinary_disk a.
Proof. intros a [<-|[<-|[]]]; (split; [split; unfold is_int; cbn; lia|]); repeat split; apply whole_normal; reflexivity. Qed.
Example tele_case : ordinary_planes PropTrkXml.ex_tele.
Proof.
  assert (P : forall i, ordinary_plate (PropTrkXml.ex_plate i)) by (intros i []; apply whole_normal; reflexivity).
  assert (K : forall i z, (Z.abs z < 10 ^ 10)%Z -> ordinary_sens (PropTrkXml.ex_sens i (IZR z))).
  { intros i z Z [f| | | | | | | | |]; cbn [sget PropTrkXml.ex_sens se_plate se_PX se_PY se_Res se_ResX se_ResY se_R1 se_R2 se_R3 se_R4]; try (apply whole_normal; (reflexivity || exact Z)). apply P. }
  split; [apply PropTrkXml.tele_case|]. split; [intros l [<-|[]]; apply P|]. split; [intros e [<-|[]]; apply (K 8%Z 5%Z); reflexivity|]. split; [apply P | apply (K 10%Z 0%Z); reflexivity].
Qed.
(** and ladder detectors, disks of petals and beam telescopes of every kind, *)
Theorem C83_ladders : forall type rIn rOut half gap rad h hp, storable (ParamsSpec.after hp) -> ordinary_params (ParamsSpec.after hp) ->
  normal rIn -> normal rOut -> normal half -> normal gap -> normal rad -> (forall a, In a h -> ordinary_ladders a) ->
  settles zp_toXML zp_fromXML (zp_made type rIn rOut half gap rad h, ParamsSpec.after hp).
Proof. exact ladders_settle. Qed.
Print Assumptions C83_ladders.
Theorem C83_disks : forall h hp, storable (ParamsSpec.after hp) -> ordinary_params (ParamsSpec.after hp) -> (forall a, In a h -> ordinary_disk a) ->
  settles ftd_toXML ftd_fromXML (ftd_made h, ParamsSpec.after hp).
Proof. exact disks_settle. Qed.
Print Assumptions C83_disks.
Theorem C83_planes : forall s hp, storable (ParamsSpec.after hp) -> ordinary_params (ParamsSpec.after hp) -> ordinary_planes s ->
  settles si_toXML si_fromXML (s, ParamsSpec.after hp).
Proof. exact planes_settle. Qed.
Print Assumptions C83_planes.

Example pads_case : exists l, fps_made PropPadXml.ex_disk [] l /\ ordinary_disk_of_pads l.
Proof.
  pose proof PI2_3_2. unfold PI2 in *.
  destruct (FpsProofs5.fps_exists PropPadXml.ex_disk) as [l [HM _]]; try (cbn; lra || lia).
  { unfold fps_sane; cbn; lra. }
  exists l. split; [exact HM|]. pose proof (FpsProofs.fps_made_rep _ _ _ HM) as HR. destruct HR. unfold ordinary_disk_of_pads.
  rewrite fr_rMin, fr_rMax, fr_ph, fr_w, fr_g, fr_phi. unfold FpsProofs.fphi, PropPadXml.ex_disk. cbn [fa_rMin fa_rMax fa_padHeight fa_padWidth fa_padGap fa_phiMax].
  rewrite DiskProofs.wrap_id by lra. repeat split; apply whole_normal; reflexivity.
Qed.
(** and disks of equal pads, the full ring among them. *)
Theorem C83_disk_of_pads : forall a h l, fps_made a h l -> ordinary_disk_of_pads l -> settles fps_toXML fps_fromXML l.
Proof. exact fps_settles. Qed.
Print Assumptions C83_disk_of_pads.

Example layers_case : let v := getLayerLayout (calo_run (new_barrel 170 200 8 0) PropCaloXml.ex_layers) in forall l, In l v -> ordinary_layer l.
Proof. cbn. intros l [<-|[<-|[<-|[]]]]; repeat split; cbn; apply whole_normal; reflexivity. Qed.
(** A calorimeter can always be loaded from its file; the copy settles if and only if close consecutive layers of the copy are equal. *)
Theorem C83_barrel : forall rMin zMax sym phi0 h hp,
  let c := calo_run (new_barrel rMin zMax sym phi0) h in let p := ParamsSpec.after hp in
  is_int sym -> (getNLayers (getLayerLayout c) < 2147483648)%Z -> storable p -> ordinary_params p -> normal rMin -> normal zMax -> normal phi0 ->
  (forall l, In l (getLayerLayout c) -> ordinary_layer l) ->
  exists y, reload calo_toXML calo_fromXML (c, p) = Ok y /\ (reload calo_toXML calo_fromXML y = Ok y <-> distinct_steps (getLayerLayout (fst y))).
Proof. exact barrel_again. Qed.
Print Assumptions C83_barrel.
Theorem C83_endcap : forall rMin rMax zMin sym phi0 h hp,
  let c := calo_run (new_endcap rMin rMax zMin sym phi0) h in let p := ParamsSpec.after hp in
  is_int sym -> (getNLayers (getLayerLayout c) < 2147483648)%Z -> storable p -> ordinary_params p -> normal rMin -> normal rMax -> normal zMin -> normal phi0 ->
  (forall l, In l (getLayerLayout c) -> ordinary_layer l) ->
  exists y, reload calo_toXML calo_fromXML (c, p) = Ok y /\ (reload calo_toXML calo_fromXML y = Ok y <-> distinct_steps (getLayerLayout (fst y))).
Proof. exact endcap_again. Qed.
Print Assumptions C83_endcap.

(** This can fail again and again: there are calorimeters of n + 1 layers whose first layer stays the same through n - 1 copies and changes in the n-th. *)
Theorem C83_calorimeter_refuted : forall n k rMin zMax sym phi0, (Z.of_nat (S n) < 2147483648)%Z -> is_int sym ->
  let c := calo_run (new_barrel rMin zMax sym phi0) (zigzag n) in
  exists y, copies k (c, params_empty) = Ok y /\ getNLayers (getLayerLayout (fst y)) = Z.of_nat (S n) /\
    getThickness (getLayerLayout (fst y)) 0 = Ok (if (k <? n)%nat then swing (n - 1) else 100008).
Proof. exact zigzag_changes. Qed.
Print Assumptions C83_calorimeter_refuted.
