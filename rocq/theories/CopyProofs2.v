From Coq Require Import ZArith List String Ascii Bool Reals Lia Lra Sorting.Sorted.
From Verif Require Import Base BaseProofs RBase VecModel XmlModel XmlSpec XmlProofs NumModel NumSpec NumProofs HxModel HxSpec HxProofs
  ParamsModel ParamsSpec ParamsProofs ParXmlModel ParXmlSpec ParXmlProofs CaloModel CaloSpec CaloProofs CaloXmlModel CaloXmlSpec CaloXmlProofs ZpModel ZpSpec FtdModel FtdSpec
  PadXmlModel PadXmlProofs PadXmlProofs2 TrkModel TrkXmlModel TrkXmlSpec TrkXmlProofs TrkXmlProofs2 TrkXmlProofs3 TrkXmlProofs4 CopySpec CopyProofs.
Import ListNotations.
Open Scope R_scope.

Lemma rr : forall x, normal x -> reread (reread x) = reread x.
Proof. exact double_stable. Qed.

(** what the second copy needs of parameters *)
Lemma par_again : forall hp, storable (after hp) -> let p := after hp in
  sorted_params p /\ text_ok_params p /\ sorted_params (back p) /\ text_ok_params (back p).
Proof.
  intros hp S p. pose proof (after_sorted hp) as A. fold p in A. split; [exact A|]. split; [apply storable_text; exact S|].
  split; [apply back_sorted; exact A | apply storable_text; apply back_storable; assumption].
Qed.

Lemma field_settles : forall b hp, storable (after hp) -> ordinary_params (after hp) -> normal (vx b) -> normal (vy b) -> normal (vz b) ->
  settles field_toXML field_fromXML (b, after hp).
Proof.
  intros b hp S O X Y Z y E. destruct (par_again hp S) as (P1 & P2 & P3 & P4). rewrite reload_field in E by assumption. injection E as <-.
  rewrite reload_field by assumption. rewrite back_back by assumption. unfold reread_field. cbn [vx vy vz]. rewrite !rr by assumption. reflexivity.
Qed.
Lemma material_settles : forall m, clean_text (sm_name m) -> ordinary_material m -> settles smat_toXML smat_fromXML m.
Proof.
  intros m C (O1 & O2 & O3 & O4 & O5) y E. rewrite material_back in E by exact C. injection E as <-. rewrite material_back by exact C.
  cbn [sm_name sm_A sm_Z sm_density sm_radLength sm_intLength]. rewrite !rr by assumption. reflexivity.
Qed.

Lemma part_again : forall q, ordinary_part q -> reread_part (reread_part q) = reread_part q.
Proof. intros q (A & B & C & D & E & F). unfold reread_part. cbn [q_d q_off q_t q_len q_w q_rad]. rewrite !rr by assumption. reflexivity. Qed.
Lemma ladders_again : forall a, ordinary_ladders a -> reread_ladders (reread_ladders a) = reread_ladders a.
Proof. intros a (_ & A & B & C). unfold reread_ladders. cbn [za_n za_phi0 za_lad za_sen]. rewrite rr, !part_again by assumption. reflexivity. Qed.
Lemma map_again : forall {A} (f : A -> A) l, (forall x, In x l -> f (f x) = f x) -> map f (map f l) = map f l.
Proof. intros A f l H. rewrite map_map. apply map_ext_in. exact H. Qed.
Lemma ladders_settle : forall type rIn rOut half gap rad h hp, storable (after hp) -> ordinary_params (after hp) ->
  normal rIn -> normal rOut -> normal half -> normal gap -> normal rad -> (forall a, In a h -> ordinary_ladders a) ->
  settles zp_toXML zp_fromXML (zp_made type rIn rOut half gap rad h, after hp).
Proof.
  intros type rIn rOut half gap rad h hp S O N1 N2 N3 N4 N5 L y E. destruct (par_again hp S) as (P1 & P2 & P3 & P4).
  rewrite reload_zp in E by (try assumption; intros a A; apply L; exact A).
  destruct ((1 <=? type) && (type <=? 3))%Z%bool eqn:T; [|discriminate E]. injection E as <-.
  rewrite reload_zp; [|assumption..|]. 2:{ intros a A. apply in_map_iff in A. destruct A as [b [<- B]]. apply (L b B). }
  rewrite T, back_back, !rr by assumption. rewrite map_again; [reflexivity|]. intros x X. apply ladders_again. apply L. exact X.
Qed.

Lemma disk_again : forall a, ordinary_disk a -> reread_disk (reread_disk a) = reread_disk a.
Proof.
  intros a (_ & A). decompose [and] A. unfold reread_disk.
  cbn [a_nPetals a_nSensors a_double a_type a_open a_phi0 a_alpha a_z a_zoff a_zsign a_supR a_supT a_supMin a_supMax a_supW a_supRad a_senR a_senT a_senMin a_senMax a_senW a_senRad].
  rewrite !rr by assumption. reflexivity.
Qed.
Lemma disks_settle : forall h hp, storable (after hp) -> ordinary_params (after hp) -> (forall a, In a h -> ordinary_disk a) ->
  settles ftd_toXML ftd_fromXML (ftd_made h, after hp).
Proof.
  intros h hp S O L y E. destruct (par_again hp S) as (P1 & P2 & P3 & P4).
  destruct (Nat.leb_spec (List.length h) 7) as [N|N]; [|rewrite disks_many in E by exact N; discriminate E].
  assert (TY : forall a, In a h -> disk_type a).
  { intros a A. unfold disk_type. destruct (Z.eq_dec (a_type a) 1) as [T1|T1]; [left; exact T1|]. destruct (Z.eq_dec (a_type a) 2) as [T2|T2]; [right; exact T2|].
    rewrite (disks_unknown h hp a) in E; [discriminate E | exact N | exact S | intros b B; apply (L b B) | exact A | unfold disk_type; tauto]. }
  assert (R : forall k p, (List.length k <= 7)%nat -> sorted_params p -> text_ok_params p -> (forall a, In a k -> disk_ints a /\ disk_type a) ->
    reload ftd_toXML ftd_fromXML (ftd_made k, p) = Ok (ftd_made (map reread_disk k), back p)).
  { intros k p Nk Q1 Q2 D. rewrite reload_ftd by (try assumption; intros a A; apply D; exact A).
    rewrite (rfold_each _ _ (fun f a => ftd_addLayer f (reread_disk a))) by (intros s a A; apply read_felem; apply D; exact A).
    cbn [rbind]. unfold ftd_made. rewrite fold_map. reflexivity. }
  rewrite R in E by first [assumption | intros a A; split; [apply (L a A) | apply TY; exact A]]. injection E as <-.
  rewrite R; [|rewrite map_length; exact N | assumption..|].
  - rewrite back_back by assumption. rewrite map_again; [reflexivity|]. intros x X. apply disk_again. apply L. exact X.
  - intros a A. apply in_map_iff in A. destruct A as [b [<- B]]. split; [apply (L b B) | apply (TY b B)].
Qed.

Lemma plate_again : forall p, ordinary_plate p -> reread_plate (reread_plate p) = reread_plate p.
Proof.
  intros p O. pose proof (O FX) as K1. pose proof (O FY) as K2. pose proof (O FZ) as K3. pose proof (O FRXY) as K4. pose proof (O FRZX) as K5. pose proof (O FRZY) as K6.
  pose proof (O FSX) as K7. pose proof (O FSY) as K8. pose proof (O FT) as K9. pose proof (O FRad) as K10. cbn [pget] in *.
  unfold reread_plate. cbn [pl_ID pl_X pl_Y pl_Z pl_RXY pl_RZX pl_RZY pl_SX pl_SY pl_T pl_Rad]. rewrite !rr by assumption. reflexivity.
Qed.
Lemma reread_0 : reread 0 = 0.
Proof. exact kept_zero. Qed.
Lemma unrot_again : forall p, ordinary_plate p -> reread_plate (unrotated (reread_plate (unrotated p))) = reread_plate (unrotated p).
Proof.
  intros p O. pose proof (O FX) as K1. pose proof (O FY) as K2. pose proof (O FZ) as K3.
  pose proof (O FSX) as K7. pose proof (O FSY) as K8. pose proof (O FT) as K9. pose proof (O FRad) as K10. cbn [pget] in *.
  unfold reread_plate, unrotated. cbn [pl_ID pl_X pl_Y pl_Z pl_RXY pl_RZX pl_RZY pl_SX pl_SY pl_T pl_Rad]. rewrite reread_0, !rr by assumption. reflexivity.
Qed.
Lemma sens_again : forall e rx ry rx' ry', ordinary_sens e -> reread_sens (reread_sens e rx' ry') rx ry = reread_sens e rx ry.
Proof.
  intros e rx ry rx' ry' O. pose proof (O SPX) as K1. pose proof (O SPY) as K2. pose proof (O SRes) as K3. pose proof (O SR1) as K4. pose proof (O SR2) as K5.
  pose proof (O SR3) as K6. pose proof (O SR4) as K7. cbn [sget] in *. unfold reread_sens. cbn [se_plate se_NX se_NY se_PX se_PY se_Res se_ResX se_ResY se_R1 se_R2 se_R3 se_R4].
  rewrite unrot_again by (intros f; exact (O (SPlate f))). rewrite !rr by assumption. reflexivity.
Qed.
Lemma planes_again : forall s, ordinary_planes s -> (si_type s = 1 \/ si_type s = 2)%Z -> si_reloaded (si_reloaded s) = si_reloaded s.
Proof.
  intros s (_ & A & B & C & D) T. unfold si_reloaded at 1. cbn [si_l si_s si_id si_type si_num si_reloaded].
  assert (RD : reloaded_dut (si_reloaded s) = reloaded_dut s).
  { unfold reloaded_dut. cbn [si_type si_reloaded si_dl si_ds]. unfold reloaded_dut. destruct (si_type s =? 1)%Z; [|reflexivity]. cbn [fst snd].
    rewrite unrot_again by exact C. rewrite sens_again by exact D. reflexivity. }
  rewrite RD. unfold si_reloaded. f_equal.
  - apply map_again. intros x X. apply plate_again. apply A. exact X.
  - rewrite map_map. apply map_ext_in. intros e I. cbn [se_Res reread_sens]. rewrite rr by exact (B e I SRes). apply sens_again. apply B. exact I.
Qed.
Lemma planes_settle : forall s hp, storable (after hp) -> ordinary_params (after hp) -> ordinary_planes s -> settles si_toXML si_fromXML (s, after hp).
Proof.
  intros s hp S O L y E. destruct (par_again hp S) as (P1 & P2 & P3 & P4). pose proof (proj1 L) as K.
  rewrite reload_si in E by assumption. destruct ((si_type s =? 1) || (si_type s =? 2))%Z%bool eqn:T; [|discriminate E]. injection E as <-.
  assert (T' : (si_type s = 1 \/ si_type s = 2)%Z) by (apply orb_true_iff in T; destruct T as [T|T]; apply Z.eqb_eq in T; auto).
  rewrite reload_si; [| assumption.. |].
  - cbn [si_type si_reloaded]. rewrite T, planes_again, back_back by assumption. reflexivity.
  - destruct K as (K1 & K2 & K3 & K4 & K5 & K6 & K7). unfold si_ok. cbn [si_reloaded si_l si_s si_dl si_ds si_id si_type si_num]. rewrite !map_length.
    split; [exact K1|]. split; [exact K2|]. split; [exact K3|].
    split; [intros l I; apply in_map_iff in I; destruct I as [x [<- X]]; exact (K4 x X)|].
    split; [intros l I; apply in_map_iff in I; destruct I as [x [<- X]]; exact (K5 x X)|].
    unfold reloaded_dut. destruct (si_type s =? 1)%Z; cbn [fst snd]; [split; assumption|]. repeat split; unfold is_int; cbn; lia.
Qed.

(** ** Calorimeters *)
Lemma placed_kept : forall m pos, (forall l, In l m -> ordinary_layer l) -> forall l, In l (placed pos m) -> kept_layer l.
Proof.
  induction m as [|x m IH]; intros pos O l I; [destruct I|]. destruct I as [<-|I].
  - destruct (O x (or_introl eq_refl)) as (A & B & C & D). unfold kept_layer, back_layer. cbn. unfold kept. rewrite !double_stable by assumption. auto.
  - eapply IH; [|exact I]. intros y Y. apply O. right. exact Y.
Qed.
Lemma merged_in : forall v l, In l (merged v) -> In l v.
Proof.
  induction v as [|x v IH]; intros l I; [destruct I|]. destruct v as [|y v]; [exact I|]. destruct (same_layer x y) eqn:E.
  - rewrite merged_same in I by exact E. destruct I as [<-|I]; [|right; apply IH; exact I]. right. apply IH. unfold head_of.
    pose proof (merged_length (y :: v)) as L. destruct (merged (y :: v)); [discriminate L|]. left. reflexivity.
  - rewrite merged_other in I by exact E. destruct I as [<-|I]; [left; reflexivity | right; apply IH; exact I].
Qed.

Lemma calo_again : forall c hp a b z1 z2, let p := after hp in storable p -> ordinary_params p -> is_int (c_sym c) -> normal (c_phi c) ->
  (getNLayers (c_layout c) < 2147483648)%Z -> (forall l, In l (c_layout c) -> ordinary_layer l) -> c_extent c = [a; b; z1; z2] -> normal a ->
  match c_type c with BARREL => normal z2 | ENDCAP => normal b /\ normal z1 end ->
  exists y, reload calo_toXML calo_fromXML (c, p) = Ok y /\
    (reload calo_toXML calo_fromXML y = Ok y <-> distinct_steps (getLayerLayout (fst y))).
Proof.
  intros c hp a b z1 z2 p S O Y NP N L E NA NT. destruct (par_again hp S) as (P1 & P2 & P3 & P4). fold p in P1, P2, P3, P4.
  destruct (reload_calo c p a b z1 z2 P1 P2 Y N E) as [b' [z2' [R TY]]]. eexists. split; [exact R|]. cbn [fst]. unfold getLayerLayout. cbn [set_layout c_layout].
  assert (LEN : getNLayers (placed (snd (base_calo c a b' z1 z2')) (merged (c_layout c))) = getNLayers (c_layout c))
    by (unfold getNLayers; rewrite placed_length, merged_length; reflexivity).
  set (pos := snd (base_calo c a b' z1 z2')) in *. set (v := placed pos (merged (c_layout c))) in *.
  assert (KL : forall l, In l v -> kept_layer l) by (apply placed_kept; intros l I; apply L; apply merged_in; exact I).
  assert (KG : gap_free pos v) by apply placed_gap_free.
  assert (ITF : placed pos (merged v) = v <-> distinct_steps v) by (rewrite layers_back_iff; tauto).
  unfold base_calo in *. destruct (c_type c) eqn:T; cbn [fst snd] in *.
  - subst z2'. set (c0 := new_barrel _ _ _ _) in *.
    destruct (reload_calo (set_layout c0 v) (back p) (atof (print_double a)) (atof (print_double a)) 0 (atof (print_double z2)) P3 P4) as [b2 [z3 [R2 TY2]]];
      [exact Y | cbn [set_layout c_layout]; rewrite LEN; exact N | reflexivity|].
    cbn in TY2. subst z3. rewrite R2, back_back by assumption. unfold base_calo. cbn [set_layout c_type c_sym c_phi c0 new_barrel c_layout fst snd].
    rewrite !double_stable by assumption. fold pos. rewrite <- ITF. fold c0. split; [intros Q; injection Q as Q; exact Q | intros Q; rewrite Q; reflexivity].
  - subst b'. destruct NT as [NB NZ]. set (c0 := new_endcap _ _ _ _ _) in *.
    destruct (reload_calo (set_layout c0 v) (back p) (atof (print_double a)) (atof (print_double b)) (atof (print_double z1)) (atof (print_double z1)) P3 P4) as [b2 [z3 [R2 TY2]]];
      [exact Y | cbn [set_layout c_layout]; rewrite LEN; exact N | reflexivity|].
    cbn in TY2. subst b2. rewrite R2, back_back by assumption. unfold base_calo. cbn [set_layout c_type c_sym c_phi c0 new_endcap c_layout fst snd].
    rewrite !double_stable by assumption. fold pos. rewrite <- ITF. fold c0. split; [intros Q; injection Q as Q; exact Q | intros Q; rewrite Q; reflexivity].
Qed.
Lemma barrel_again : forall rMin zMax sym phi0 h hp,
  let c := calo_run (new_barrel rMin zMax sym phi0) h in let p := after hp in
  is_int sym -> (getNLayers (getLayerLayout c) < 2147483648)%Z -> storable p -> ordinary_params p -> normal rMin -> normal zMax -> normal phi0 ->
  (forall l, In l (getLayerLayout c) -> ordinary_layer l) ->
  exists y, reload calo_toXML calo_fromXML (c, p) = Ok y /\ (reload calo_toXML calo_fromXML y = Ok y <-> distinct_steps (getLayerLayout (fst y))).
Proof.
  intros rMin zMax sym phi0 h hp c p Y N S O N1 N2 N3 L.
  destruct (run_extent h (new_barrel rMin zMax sym phi0) rMin rMin 0 zMax eq_refl) as [b' [z2' [E [E2 E3]]]]. fold c in E, E3. cbn in E2. subst z2'.
  destruct (run_fixed h (new_barrel rMin zMax sym phi0)) as [Ty [Sy Ph]]. fold c in Ty, Sy, Ph. cbn in Ty, Sy, Ph.
  eapply calo_again; try eassumption; [rewrite Sy; exact Y | rewrite Ph; exact N3 | rewrite Ty; exact N2].
Qed.
Lemma endcap_again : forall rMin rMax zMin sym phi0 h hp,
  let c := calo_run (new_endcap rMin rMax zMin sym phi0) h in let p := after hp in
  is_int sym -> (getNLayers (getLayerLayout c) < 2147483648)%Z -> storable p -> ordinary_params p -> normal rMin -> normal rMax -> normal zMin -> normal phi0 ->
  (forall l, In l (getLayerLayout c) -> ordinary_layer l) ->
  exists y, reload calo_toXML calo_fromXML (c, p) = Ok y /\ (reload calo_toXML calo_fromXML y = Ok y <-> distinct_steps (getLayerLayout (fst y))).
Proof.
  intros rMin rMax zMin sym phi0 h hp c p Y N S O N1 N2 N3 N4 L.
  destruct (run_extent h (new_endcap rMin rMax zMin sym phi0) rMin rMax zMin zMin eq_refl) as [b' [z2' [E [E2 E3]]]]. fold c in E, E3. cbn in E2. subst b'.
  destruct (run_fixed h (new_endcap rMin rMax zMin sym phi0)) as [Ty [Sy Ph]]. fold c in Ty, Sy, Ph. cbn in Ty, Sy, Ph.
  eapply calo_again; try eassumption; [rewrite Sy; exact Y | rewrite Ph; exact N4 | rewrite Ty; auto].
Qed.
