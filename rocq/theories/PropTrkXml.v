(** Property theorems for C37: trackers in files, and C66: fields and materials in files *)
From Coq Require Import ZArith Reals List String Ascii Bool Lia Lra.
From Verif Require Import Base RBase VecModel XmlModel XmlSpec XmlProofs NumModel NumSpec NumProofs HxModel HxSpec HxProofs ParamsModel ParamsSpec
  ParXmlModel ParXmlSpec ParXmlProofs ZpModel ZpSpec FtdModel FtdSpec TrkModel TrkXmlModel TrkXmlSpec TrkXmlProofs TrkXmlProofs2 TrkXmlProofs3 TrkXmlProofs4.
From Verif Require TpcXmlSpec.
Import ListNotations.
Open Scope R_scope.

Lemma whole : forall z : Z, (Z.abs z < 10 ^ 10)%Z -> kept (IZR z).
Proof. intros z Z. apply whole_kept. exact Z. Qed.
Example no_params_storable : storable (after []).
Proof. intros t k v G. destruct t; discriminate. Qed.
Example no_params_survive : survive (after []).
Proof. intros t k v G. destruct t; discriminate. Qed.

(** Two layers of ladders with different lengths. *)
Definition ex_ladder (n : Z) (r : R) : zargs := mkZA n 0 (mkZP r (-2) 1 65 11 200) (mkZP (r + 1) (-2) 3 60 10 90).
Example ladder_case : forall a, In a [ex_ladder 8 15; ex_ladder 12 26] -> is_int (za_n a) /\ kept_ladders a.
Proof.
  intros a [<-|[<-|[]]]; (split; [unfold is_int; cbn; lia|]); unfold ex_ladder, kept_ladders, kept_part; cbn [za_phi0 za_lad za_sen q_d q_off q_t q_len q_w q_rad];
    [replace (15 + 1) with 16 by lra | replace (26 + 1) with 27 by lra]; repeat split; apply whole; reflexivity.
Qed.
(** Two disks, one of pixels and one of strips. *)
Definition ex_disk (type : Z) (z : R) : ftd_args := mkFA 16 2 true type 1 0 0 z 1 1 40 1 37 50 110 90 40 2 37 50 110 90.
Example disk_case : forall a, In a [ex_disk 1 220; ex_disk 2 371] -> disk_ints a /\ disk_type a /\ kept_disk a.
Proof.
  intros a [<-|[<-|[]]]; (split; [split; unfold is_int; cbn; lia|]); (split; [unfold disk_type; cbn; lia|]); repeat split; apply whole; reflexivity.
Qed.
(** A telescope of one plane and a device under test, all numbers short, nothing rotated. *)
Definition ex_plate (i : Z) : plate := mkPl i 1 2 3 0 0 0 10 20 4 94.
Definition ex_sens (i : Z) (res : R) : sens := mkSe (ex_plate i) 256 512 2 3 5 res res 1 0 0 1.
Definition ex_tele : siplanes := mkSi [ex_plate 7] [ex_sens 8 5] (ex_plate 9) (ex_sens 10 0) 3 1 1.
Example plate_kept : forall i, kept_plate (ex_plate i) /\ plate_is_unrotated (ex_plate i).
Proof. intros i. split; [intros []; apply whole; reflexivity | repeat split]. Qed.
Example tele_case : si_ok ex_tele /\ (si_type ex_tele = 1)%Z /\ (forall l, In l (si_l ex_tele) -> kept_plate l) /\
  (forall e, In e (si_s ex_tele) -> kept_sens e /\ plate_is_unrotated (se_plate e) /\ se_ResX e = se_Res e /\ se_ResY e = se_Res e) /\
  (kept_plate (si_dl ex_tele) /\ plate_is_unrotated (si_dl ex_tele) /\ kept_sens (si_ds ex_tele) /\ plate_is_unrotated (se_plate (si_ds ex_tele)) /\
      se_ResX (si_ds ex_tele) = 0 /\ se_ResY (si_ds ex_tele) = 0).
Proof.
  assert (K : forall i z, (Z.abs z < 10 ^ 10)%Z -> kept_sens (ex_sens i (IZR z))).
  { intros i z Z [f| | | | | | | | |]; cbn [sget ex_sens se_plate se_PX se_PY se_Res se_ResX se_ResY se_R1 se_R2 se_R3 se_R4]; try (apply whole; (reflexivity || exact Z)). apply plate_kept. }
  split.
  { split; [reflexivity|]. assert (I : forall z, (0 <= z <= 1000)%Z -> is_int z) by (intros; unfold is_int; lia).
    split; [apply I; cbn; lia|]. split; [apply I; cbn; lia|]. split; [intros l [<-|[]]; apply I; cbn; lia|].
    split; [intros e [<-|[]]; repeat split; apply I; cbn; lia|]. split; [apply I; cbn; lia|]. repeat split; apply I; cbn; lia. }
  split; [reflexivity|]. split; [intros l [<-|[]]; apply plate_kept|]. split.
  - intros e [<-|[]]. split; [apply (K 8%Z 5%Z); reflexivity|]. repeat split.
  - split; [apply plate_kept|]. split; [apply plate_kept|]. split; [apply (K 10%Z 0%Z); reflexivity|]. repeat split.
Qed.
(** Two tracker planes, one with a ladder and a sensitive part. *)
Definition ex_planes : tplanes :=
  mkTP [mkTL 1 "a" [mkMa (ex_plate 1) "Al"] [mkSr (ex_plate 2) "Si" 10 20 1 2 3 4]; mkTL 2 "" [] []] 0 "" 5 0 2.
Example planes_case : tp_ok ex_planes.
Proof.
  assert (I : forall z, (0 <= z <= 1000)%Z -> is_int z) by (intros; unfold is_int; lia).
  assert (C : forall s, In s ["a"; "Al"; "Si"; ""]%string -> clean_text s).
  { intros s H. cbn in H. repeat (destruct H as [<-|H]; [apply plain_clean; reflexivity|]). destruct H. }
  split; [apply I; cbn; lia|]. split; [apply I; cbn; lia|]. intros l [<-|[<-|[]]]; (split; [apply I; cbn; lia|]); (split; [apply C; cbn; tauto|]).
  - split; intros m [<-|[]]; [split; [apply I; cbn; lia | apply C; cbn; tauto]|]. split; [apply I; cbn; lia|]. split; [apply C; cbn; tauto|]. split; apply I; cbn; lia.
  - split; intros m [].
Qed.
(** A field of 4 tesla, and carbon in whole numbers. *)
Example field_case : kept 0 /\ kept 4.
Proof. split; apply whole; reflexivity. Qed.
Example carbon_case : clean_text "carbon" /\ kept 12 /\ kept 6 /\ kept 2 /\ kept 188 /\ kept 381.
Proof. split; [apply plain_clean; reflexivity|]. repeat split; apply whole; reflexivity. Qed.
Example words_case : no_number "twelve" /\ no_nul "twelve" /\ no_number " g/mol" /\ all_digits "12" = true /\ no_nul "g/mol".
Proof.
  assert (N : forall s, has_char (chr 0) s = false -> no_nul s).
  { intros s H c C Z. assert (c = chr 0) by (unfold byte in Z; destruct c as [[] [] [] [] [] [] [] []]; try discriminate Z; reflexivity). subst c.
    apply has_char_iff in C. congruence. }
  split; [exists "t"%char, "welve"%string; repeat split; discriminate|]. split; [apply N; reflexivity|].
  split; [exists "g"%char, "/mol"%string; repeat split; discriminate|]. split; [reflexivity | apply N; reflexivity].
Qed.

(** The parameters that come back with a detector are those that come back on their own (C32). *)
Lemma back_came : forall hp, storable (after hp) -> TpcXmlSpec.came_back (after hp) (back (after hp)).
Proof. intros hp S. apply save_load; [apply after_sorted | apply storable_text; exact S]. Qed.

(** A detector of ladders is the same after save and load if and only if it is of type CCD, CMOS or HYBRID and all its numbers and parameters are kept by the number format (C32, C33). *)
Theorem C37_ladders_survive : forall type rIn rOut half gap rad h hp,
  let o := (zp_made type rIn rOut half gap rad h, after hp) in
  storable (after hp) -> (forall a, In a h -> is_int (za_n a)) ->
  (reload zp_toXML zp_fromXML o = Ok o <->
   (1 <= type <= 3)%Z /\ (kept rIn /\ kept rOut /\ kept half /\ kept gap /\ kept rad) /\
   (forall a, In a h -> kept_ladders a) /\ survive (after hp)).
Proof. exact ladders_survive. Qed.
Print Assumptions C37_ladders_survive.

(** In any case each number comes back as the number its ten digits mean, each in its own place. *)
Theorem C37_ladders_back : forall type rIn rOut half gap rad h hp, (1 <= type <= 3)%Z -> storable (after hp) ->
  (forall a, In a h -> is_int (za_n a)) ->
  exists p', TpcXmlSpec.came_back (after hp) p' /\ reload zp_toXML zp_fromXML (zp_made type rIn rOut half gap rad h, after hp) =
    Ok (zp_made type (reread rIn) (reread rOut) (reread half) (reread gap) (reread rad) (map reread_ladders h), p').
Proof.
  intros type rIn rOut half gap rad h hp T SP N. exists (back (after hp)). split; [apply back_came; exact SP|].
  rewrite reload_zp by (try apply after_sorted; try apply storable_text; assumption). destruct (Z.leb_spec 1 type), (Z.leb_spec type 3); try lia. reflexivity.
Qed.
Print Assumptions C37_ladders_back.

(** A detector of ladders of another type is written but cannot be loaded. *)
Theorem C37_ladders_unknown_refuted : forall type rIn rOut half gap rad h hp, ~ (1 <= type <= 3)%Z -> storable (after hp) ->
  (forall a, In a h -> is_int (za_n a)) ->
  reload zp_toXML zp_fromXML (zp_made type rIn rOut half gap rad h, after hp) = Throw (EGear "Unknown").
Proof. exact ladders_unknown. Qed.
Print Assumptions C37_ladders_unknown_refuted.

(** The forward tracker is the same after save and load if and only if it has at most seven disks, each of type PIXEL or STRIP, and all numbers and parameters are kept. *)
Theorem C37_disks_survive : forall h hp, let o := (ftd_made h, after hp) in
  storable (after hp) -> (forall a, In a h -> disk_ints a) ->
  (reload ftd_toXML ftd_fromXML o = Ok o <->
   (List.length h <= 7)%nat /\ (forall a, In a h -> disk_type a /\ kept_disk a) /\ survive (after hp)).
Proof. exact disks_survive. Qed.
Print Assumptions C37_disks_survive.

(** With at most seven disks each number comes back as the number its ten digits mean. *)
Theorem C37_disks_back : forall h hp, (List.length h <= 7)%nat -> storable (after hp) -> (forall a, In a h -> disk_ints a /\ disk_type a) ->
  exists p', TpcXmlSpec.came_back (after hp) p' /\ reload ftd_toXML ftd_fromXML (ftd_made h, after hp) = Ok (ftd_made (map reread_disk h), p').
Proof.
  intros h hp L SP N. exists (back (after hp)). split; [apply back_came; exact SP|].
  rewrite reload_ftd; [| apply after_sorted | apply storable_text; assumption | assumption | intros a A; apply N; exact A].
  rewrite (rfold_each _ _ (fun f a => ftd_addLayer f (reread_disk a))) by (intros s a A; apply read_felem; apply N; exact A).
  cbn [rbind]. unfold ftd_made. rewrite fold_map. reflexivity.
Qed.
Print Assumptions C37_disks_back.

(** More than seven disks cannot be saved. *)
Theorem C37_disks_many_refuted : forall h hp, (7 < List.length h)%nat -> reload ftd_toXML ftd_fromXML (ftd_made h, after hp) = Throw (EOutOfRange "vector::at").
Proof. exact disks_many. Qed.
Print Assumptions C37_disks_many_refuted.

(** A disk of another sensor type makes the file unreadable. *)
Theorem C37_disks_unknown_refuted : forall h hp a, (List.length h <= 7)%nat -> storable (after hp) -> (forall a, In a h -> disk_ints a) ->
  In a h -> ~ disk_type a -> reload ftd_toXML ftd_fromXML (ftd_made h, after hp) = Throw (EGear "Unknown").
Proof. exact disks_unknown. Qed.
Print Assumptions C37_disks_unknown_refuted.

(** A beam telescope is the same after save and load if and only if its type is known, all its numbers are kept, no sensitive part is rotated, both resolutions of each sensitive part equal its old resolution, and the device under test is there exactly when the type says so, with resolutions 0. *)
Theorem C37_planes_survive : forall s hp, let o := (s, after hp) in storable (after hp) -> si_ok s ->
  (reload si_toXML si_fromXML o = Ok o <->
   (si_type s = 1 \/ si_type s = 2)%Z /\ (forall l, In l (si_l s) -> kept_plate l) /\
   (forall e, In e (si_s s) -> kept_sens e /\ plate_is_unrotated (se_plate e) /\ se_ResX e = se_Res e /\ se_ResY e = se_Res e) /\
   ((si_type s = 1)%Z -> kept_plate (si_dl s) /\ plate_is_unrotated (si_dl s) /\ kept_sens (si_ds s) /\ plate_is_unrotated (se_plate (si_ds s)) /\
      se_ResX (si_ds s) = 0 /\ se_ResY (si_ds s) = 0) /\
   ((si_type s = 2)%Z -> si_dl s = plate0 /\ si_ds s = sens0) /\ survive (after hp)).
Proof. exact planes_survive. Qed.
Print Assumptions C37_planes_survive.

(** What comes back for every telescope of known type. *)
Theorem C37_planes_back : forall s hp, storable (after hp) -> si_ok s -> (si_type s = 1 \/ si_type s = 2)%Z ->
  exists p', TpcXmlSpec.came_back (after hp) p' /\ reload si_toXML si_fromXML (s, after hp) = Ok (si_reloaded s, p').
Proof.
  intros s hp SP O T. exists (back (after hp)). split; [apply back_came; exact SP|].
  rewrite reload_si by (try apply after_sorted; try apply storable_text; assumption). destruct T as [-> | ->]; reflexivity.
Qed.
Print Assumptions C37_planes_back.

(** A telescope with a rotated sensitive part never comes back as it was. *)
Theorem C37_planes_rotation_refuted : forall s hp e, storable (after hp) -> si_ok s -> In e (si_s s) -> ~ plate_is_unrotated (se_plate e) ->
  reload si_toXML si_fromXML (s, after hp) <> Ok (s, after hp).
Proof. exact planes_rotation_lost. Qed.
Print Assumptions C37_planes_rotation_refuted.

(** Nor does one whose resolutions in x and y differ. *)
Theorem C37_planes_resolution_refuted : forall s hp e, storable (after hp) -> si_ok s -> In e (si_s s) -> se_ResX e <> se_ResY e ->
  reload si_toXML si_fromXML (s, after hp) <> Ok (s, after hp).
Proof. exact planes_resolution_lost. Qed.
Print Assumptions C37_planes_resolution_refuted.

(** A device under test added to a telescope of the type without one is lost. *)
Theorem C37_planes_dut_refuted : forall s hp, storable (after hp) -> si_ok s -> (si_type s = 2)%Z -> si_ds s <> sens0 ->
  exists s' p', reload si_toXML si_fromXML (s, after hp) = Ok (s', p') /\ si_ds s' = sens0 /\ si_dl s' = plate0.
Proof. exact planes_dut_lost. Qed.
Print Assumptions C37_planes_dut_refuted.

(** A telescope of another type is written but cannot be loaded. *)
Theorem C37_planes_unknown_refuted : forall s hp, storable (after hp) -> si_ok s -> ~ (si_type s = 1 \/ si_type s = 2)%Z ->
  reload si_toXML si_fromXML (s, after hp) = Throw (EGear "type of SiPlanes").
Proof. exact planes_unknown. Qed.
Print Assumptions C37_planes_unknown_refuted.

(** Loading saved tracker planes is undefined behaviour, whatever the planes are: the element <layers> is never written, and the null pointer is followed. *)
Theorem C37_tracker_planes_refuted : forall t hp, storable (after hp) -> tp_ok t -> reload tp_toXML tp_fromXML (t, after hp) = UB.
Proof. exact tracker_planes_crash. Qed.
Print Assumptions C37_tracker_planes_refuted.

(** A description with the element <layers> and with the IDs of the layers, as a person would write it, is read correctly, number by number. *)
Theorem C37_tracker_planes_read : forall t, tp_ok t -> rbind (via_file (tp_described t)) tp_fromXML =
  Ok (mkTP (map reread_tplayer (tp_layers t)) 0 "" (tp_id t) 0 (tp_num t), params_empty).
Proof. exact planes_read. Qed.
Print Assumptions C37_tracker_planes_read.

(** A constant field is the same after save and load if and only if its three components and its parameters are kept. *)
Theorem C66_field_survives : forall b hp, let o := (b, after hp) in storable (after hp) ->
  (reload field_toXML field_fromXML o = Ok o <-> kept (vx b) /\ kept (vy b) /\ kept (vz b) /\ survive (after hp)).
Proof. exact field_survives. Qed.
Print Assumptions C66_field_survives.

(** Each component comes back as the number its ten digits mean. *)
Theorem C66_field_back : forall b hp, storable (after hp) ->
  exists p', TpcXmlSpec.came_back (after hp) p' /\ reload field_toXML field_fromXML (b, after hp) = Ok (mkVec (reread (vx b)) (reread (vy b)) (reread (vz b)), p').
Proof.
  intros b hp SP. exists (back (after hp)). split; [apply back_came; exact SP|].
  rewrite reload_field by (try apply after_sorted; apply storable_text; assumption). reflexivity.
Qed.
Print Assumptions C66_field_back.

(** A material is the same after save and load if and only if its five numbers are kept. *)
Theorem C66_material_survives : forall m, clean_text (sm_name m) ->
  (reload smat_toXML smat_fromXML m = Ok m <-> kept (sm_A m) /\ kept (sm_Z m) /\ kept (sm_density m) /\ kept (sm_radLength m) /\ kept (sm_intLength m)).
Proof. exact material_survives. Qed.
Print Assumptions C66_material_survives.

(** Each number comes back as the number its ten digits mean. *)
Theorem C66_material_back : forall m, clean_text (sm_name m) -> reload smat_toXML smat_fromXML m =
  Ok (mkSM (sm_name m) (reread (sm_A m)) (reread (sm_Z m)) (reread (sm_density m)) (reread (sm_radLength m)) (reread (sm_intLength m))).
Proof. exact material_back. Qed.
Print Assumptions C66_material_back.

(** A material whose atomic mass is not a number is accepted, and all its numbers become 0, also the correct ones. *)
Theorem C66_material_no_number_refuted : forall name a z d r i, no_nul name -> no_nul a -> no_number a ->
  smat_fromXML (material_elem name a z d r i) = Ok (mkSM name 0 0 0 0 0).
Proof. exact material_no_number. Qed.
Print Assumptions C66_material_no_number_refuted.

(** An atomic mass followed by a unit is read, but all the other numbers become 0. *)
Theorem C66_material_unit_refuted : forall name ds u z d r i, no_nul name -> no_nul u -> all_digits ds = true -> ds <> ""%string -> no_number (" " +++ u) ->
  smat_fromXML (material_elem name (ds +++ " " +++ u) z d r i) = Ok (mkSM name (atof ds) 0 0 0 0).
Proof. exact material_unit. Qed.
Print Assumptions C66_material_unit_refuted.

(** An empty atomic mass is undefined behaviour: an uninitialised variable is used. *)
Theorem C66_material_blank_refuted : forall name a z d r i, no_nul a -> skip_ws a = ""%string -> smat_fromXML (material_elem name a z d r i) = UB.
Proof. exact material_blank. Qed.
Print Assumptions C66_material_blank_refuted.
