(** Property theorems for C43, C44: the forward tracking disks. *)
From Coq Require Import ZArith List Bool Reals Lia Lra.
From Verif Require Import Base RBase VecModel FtdModel FtdSpec FtdProofs.
Import ListNotations.
Open Scope R_scope.

(** Disk number [k] of the examples: 16 petals, 4 sensors, double sided. *)
Definition example_disk (k : Z) : ftd_args :=
  mkFA 16 4 true 1 (PI / 16) 0 0 (200 * IZR (k + 1)) 2 (if Z.even k then 1 else -1) 40 1 20 80 110 95 40 (1/5) 20 80 110 95.
Definition seven_disks : list ftd_args := map example_disk [0; 1; 2; 3; 4; 5; 6]%Z.
Definition five_disks : list ftd_args := map example_disk [0; 1; 2; 3; 4]%Z.
(** The hypotheses of the theorems hold for them. *)
Example seven_disks_ok : List.length seven_disks = 7%nat /\
  (forall i, in_documented_range seven_disks i) /\
  (forall i, (0 <= i < 14)%Z -> exists a mir, disk seven_disks i = Some (a, mir)) /\
  (forall i a mir petal, disk seven_disks i = Some (a, mir) ->
     sign_ok a /\ petal_z a petal <> 0 /\ (1 <= 3 <= a_nSensors a)%Z /\ on_back a 2 = false /\ on_back a 3 = true /\
     0 <= a_supT a + a_senT a /\ (a_supT a + a_senT a) / 2 <= petal_z a petal).
Proof.
  split; [reflexivity|]. split; [intros; now apply ftd_seven|]. split.
  - intros i H. assert (D : (i = 0 \/ i = 1 \/ i = 2 \/ i = 3 \/ i = 4 \/ i = 5 \/ i = 6 \/ i = 7 \/ i = 8 \/ i = 9 \/ i = 10 \/ i = 11 \/ i = 12 \/ i = 13)%Z) by lia.
    repeat (destruct D as [->|D]; [eexists; eexists; reflexivity|]). subst. eexists. eexists. reflexivity.
  - intros i a mir petal D.
    assert (K : exists k, (0 <= k)%Z /\ a = example_disk k).
    { unfold disk in D. destruct (documented _ i) as [[k m]|]; [|discriminate]. destruct (nth_error seven_disks k) eqn:E; [|discriminate].
      injection D as <- _. apply nth_error_In in E. cbn in E. repeat (destruct E as [<-|E]; [eexists; split; [|reflexivity]; lia|]). contradiction. }
    destruct K as (k & K & ->). assert (0 <= IZR k) by (now apply IZR_le).
    assert (S : sign_ok (example_disk k)) by (unfold sign_ok; cbn; destruct (Z.even k); auto).
    split; [exact S|]. split; [|split; [cbn; lia|split; [reflexivity|split; [reflexivity|split; [cbn; lra|]]]]];
    unfold petal_z; cbn; rewrite plus_IZR; destruct (Z.even k), (Z.even petal); lra.
Qed.
Example five_disks_lost : (0 <= 5 < 2 * Z.of_nat (List.length five_disks))%Z /\ ~ in_documented_range five_disks 5 /\
  five_disks <> [] /\ List.length five_disks <> 7%nat.
Proof. unfold in_documented_range. cbn. repeat split; try lia; intros H; try discriminate; lia. Qed.

(** getNLayers is the number of disks added. *)
Theorem C43_count : forall h, ftd_getNLayers (ftd_made h) = Z.of_nat (List.length h).
Proof. exact ftd_count. Qed.
Print Assumptions C43_count.

(** What was given to addLayer is what the getters return, for every index that is resolved as documented. *)
Theorem C43_values : forall h i, in_documented_range h i ->
  let d := omap fst (disk h i) in let f := ftd_made h in
  answers (ftd_getNPetals f i) (omap a_nPetals d) /\ answers (ftd_getNSensors f i) (omap a_nSensors d) /\
  answers (ftd_isDoubleSided f i) (omap a_double d) /\ answers (ftd_getSensorType f i) (omap a_type d) /\
  answers (ftd_getPhiHalfDistance f i) (omap a_open d) /\ answers (ftd_getPhi0 f i) (omap a_phi0 d) /\
  answers (ftd_getAlpha f i) (omap a_alpha d) /\ answers (ftd_getZposition f i) (omap a_z d) /\
  answers (ftd_getZoffset f i) (omap a_zoff d) /\ answers (ftd_getZoffsetSign0 f i) (omap a_zsign d) /\
  answers (ftd_getSupportRinner f i) (omap a_supR d) /\ answers (ftd_getSupportThickness f i) (omap a_supT d) /\
  answers (ftd_getSupportLengthMin f i) (omap a_supMin d) /\ answers (ftd_getSupportLengthMax f i) (omap a_supMax d) /\
  answers (ftd_getSupportWidth f i) (omap a_supW d) /\ answers (ftd_getSupportRadLength f i) (omap a_supRad d) /\
  answers (ftd_getSensitiveRinner f i) (omap a_senR d) /\ answers (ftd_getSensitiveThickness f i) (omap a_senT d) /\
  answers (ftd_getSensitiveLengthMin f i) (omap a_senMin d) /\ answers (ftd_getSensitiveLengthMax f i) (omap a_senMax d) /\
  answers (ftd_getSensitiveWidth f i) (omap a_senW d) /\ answers (ftd_getSensitiveRadLength f i) (omap a_senRad d).
Proof. exact ftd_values. Qed.
Print Assumptions C43_values.

(** With seven disks all indices are. *)
Theorem C43_seven : forall h i, List.length h = 7%nat -> in_documented_range h i.
Proof. exact ftd_seven. Qed.
Print Assumptions C43_seven.

(** With another number of disks some documented indices throw, namely exactly those that are not in that range ... *)
Theorem C43_not_seven_refuted : forall h i, let N := Z.of_nat (List.length h) in (0 <= i < 2 * N)%Z -> ~ in_documented_range h i ->
  disk h i <> None /\
  (exists e, ftd_getZposition (ftd_made h) i = Throw (EOutOfRange e)) /\
  (forall p, exists e, ftd_getSupportZposition (ftd_made h) i p = Throw (EOutOfRange e)) /\
  (forall p s, exists e, ftd_getSensitiveZposition (ftd_made h) i p s = Throw (EOutOfRange e)).
Proof. exact ftd_not_seven. Qed.
Print Assumptions C43_not_seven_refuted.

(** ... and there are always some. *)
Theorem C43_not_seven_exists : forall h, h <> [] -> List.length h <> 7%nat -> exists i,
  (0 <= i < 2 * Z.of_nat (List.length h))%Z /\ ~ in_documented_range h i.
Proof. exact ftd_not_seven_exists. Qed.
Print Assumptions C43_not_seven_exists.

(** The supports of the petals alternate around the z position of the disk. *)
Theorem C43_support_z : forall h i petal, in_documented_range h i -> (forall a mir, disk h i = Some (a, mir) -> sign_ok a) ->
  answers (ftd_getSupportZposition (ftd_made h) i petal)
    (omap (fun am => at_side (snd am) (petal_z (fst am) petal)) (disk h i)).
Proof. exact support_z. Qed.
Print Assumptions C43_support_z.

(** A sign that is not a whole number is cut: the petals are not displaced. *)
Theorem C43_sign_cut_refuted : forall h i petal a mir, in_documented_range h i -> disk h i = Some (a, mir) -> -1 < a_zsign a < 1 ->
  ftd_getSupportZposition (ftd_made h) i petal = Ok (at_side mir (a_z a)).
Proof. exact support_z_sign_cut. Qed.
Print Assumptions C43_sign_cut_refuted.

(** Sensors are on the support, the front ones towards the interaction point; other sensor numbers throw. *)
Theorem C43_sensitive_z : forall h i petal s a mir, in_documented_range h i -> disk h i = Some (a, mir) -> sign_ok a ->
  petal_z a petal <> 0 ->
  ((1 <= s <= a_nSensors a)%Z -> ftd_getSensitiveZposition (ftd_made h) i petal s = Ok (sensor_z a mir petal s)) /\
  (~ (1 <= s <= a_nSensors a)%Z -> exists e, ftd_getSensitiveZposition (ftd_made h) i petal s = Throw (EGear e)).
Proof. exact sensitive_z. Qed.
Print Assumptions C43_sensitive_z.

(** That is, front sensors are closer to the interaction point than the support, back sensors farther, by half the sum of the thicknesses. *)
Theorem C43_sensor_distance : forall a mir petal s, 0 <= a_supT a + a_senT a -> (a_supT a + a_senT a) / 2 <= petal_z a petal -> petal_z a petal <> 0 ->
  Rabs (sensor_z a mir petal s) =
    if on_back a s then petal_z a petal + (a_supT a + a_senT a) / 2 else petal_z a petal - (a_supT a + a_senT a) / 2.
Proof. exact sensor_distance. Qed.
Print Assumptions C43_sensor_distance.

(** Disk i+7 is the mirror image of disk i. *)
Theorem C43_mirror : forall h i petal s a, List.length h = 7%nat -> (0 <= i < 7)%Z -> nth_error h (Z.to_nat i) = Some a -> sign_ok a ->
  petal_z a petal <> 0 -> (1 <= s <= a_nSensors a)%Z ->
  (exists z, ftd_getSupportZposition (ftd_made h) i petal = Ok z /\ ftd_getSupportZposition (ftd_made h) (i + 7) petal = Ok (- z)) /\
  (exists z, ftd_getSensitiveZposition (ftd_made h) i petal s = Ok z /\ ftd_getSensitiveZposition (ftd_made h) (i + 7) petal s = Ok (- z)) /\
  ftd_getPhiPetalCd (ftd_made h) (i + 7) petal = ftd_getPhiPetalCd (ftd_made h) i petal.
Proof. exact mirror. Qed.
Print Assumptions C43_mirror.

(** The petals are equally spaced in phi. *)
Theorem C43_petal_phi : forall h i petal, in_documented_range h i ->
  answers (ftd_getPhiPetalCd (ftd_made h) i petal)
          (omap (fun am => a_phi0 (fst am) + IZR petal * (2 * a_open (fst am))) (disk h i)).
Proof. exact petal_phi. Qed.
Print Assumptions C43_petal_phi.

(** getMaxRadius only knows the disks as added ... *)
Theorem C43_max_radius : forall h i sensitive,
  answers (ftd_getMaxRadius (ftd_made h) i sensitive)
    (omap (fun a => if sensitive then a_senR a + a_senW a else a_supR a + a_supW a) (if (i <? 0)%Z then None else nth_error h (Z.to_nat i))).
Proof. exact max_radius. Qed.
Print Assumptions C43_max_radius.

(** ... and throws for their mirror images. *)
Theorem C43_max_radius_mirror_refuted : forall h i sensitive, (Z.of_nat (List.length h) <= i)%Z ->
  exists e, ftd_getMaxRadius (ftd_made h) i sensitive = Throw (EOutOfRange e).
Proof. exact max_radius_mirror. Qed.
Print Assumptions C43_max_radius_mirror_refuted.

(** A particle that crosses perpendicularly sees the thickness. *)
Theorem C43_perpendicular_thickness : forall h i sensitive a, nthZ h i = Some a ->
  ftd_getThicknessForAngle (ftd_made h) i (PI / 2) 0 sensitive = Ok (if sensitive then a_senT a else a_supT a).
Proof. exact perpendicular_thickness. Qed.
Print Assumptions C43_perpendicular_thickness.

(** The point look-ups answer -1 and false for every point of every detector. *)
Theorem C44_lookup_never : forall f p sensitive,
  ftd_getLayerIndex f p = (-1)%Z /\ ftd_getSensitiveIndex f p = (-1)%Z /\ ftd_getPetalIndex f p sensitive = Ok (-1)%Z /\
  isPointInFTD f p sensitive = Ok false.
Proof. exact lookup_never. Qed.
Print Assumptions C44_lookup_never.
