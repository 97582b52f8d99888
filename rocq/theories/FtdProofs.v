(** Proofs about the FTD. *)
From Coq Require Import ZArith List String Bool Reals Lra Lia.
From Flocq Require Import Core.Raux Core.Generic_fmt.
From Verif Require Import Base RBase Trig VecModel FtdModel FtdSpec.
Import ListNotations.
Open Scope R_scope.

Definition sup (a : ftd_args) : flayer :=
  mkFL (a_nPetals a) (a_nSensors a) (a_double a) (a_type a) (a_open a) (a_phi0 a) (a_alpha a)
       (a_z a) (a_zoff a) (a_zsign a) (a_supR a) (a_supT a) (a_supMin a) (a_supMax a) (a_supW a) (a_supRad a).
Definition sen (a : ftd_args) : flayer :=
  mkFL (a_nPetals a) (a_nSensors a) (a_double a) (a_type a) (a_open a) (a_phi0 a) (a_alpha a)
       (a_z a) (a_zoff a) (a_zsign a) (a_senR a) (a_senT a) (a_senMin a) (a_senMax a) (a_senW a) (a_senRad a).

Lemma made_vecs_from : forall h f, f_lVec (fold_left ftd_addLayer h f) = f_lVec f ++ map sup h /\
  f_sVec (fold_left ftd_addLayer h f) = f_sVec f ++ map sen h.
Proof.
  induction h as [|a h IH]; intros f; cbn [fold_left map]; [now rewrite !app_nil_r|].
  destruct (IH (ftd_addLayer f a)) as [A B]. rewrite A, B. cbn. rewrite <- !app_assoc. auto.
Qed.
Lemma made_vecs : forall h, f_lVec (ftd_made h) = map sup h /\ f_sVec (ftd_made h) = map sen h.
Proof. intros. apply (made_vecs_from h new_ftd). Qed.
Lemma made_n : forall h, ftd_getNLayers (ftd_made h) = Z.of_nat (List.length h).
Proof. intros. unfold ftd_getNLayers. rewrite (proj1 (made_vecs h)), map_length. reflexivity. Qed.

Lemma nthZ_map : forall A B (g : A -> B) l i, nthZ (map g l) i = match nthZ l i with Some a => Some (g a) | None => None end.
Proof.
  intros. unfold nthZ. destruct (i <? 0)%Z; [reflexivity|]. rewrite nth_error_map. reflexivity.
Qed.
Lemma nthZ_nth : forall A (l : list A) i, (0 <= i)%Z -> nthZ l i = nth_error l (Z.to_nat i).
Proof. intros. unfold nthZ. destruct (Z.ltb_spec i 0); [lia|reflexivity]. Qed.
Lemma nthZ_out : forall A (l : list A) i, (i < 0 \/ Z.of_nat (List.length l) <= i)%Z -> nthZ l i = None.
Proof.
  intros A l i H. unfold nthZ. destruct (Z.ltb_spec i 0); [reflexivity|]. apply nth_error_None. lia.
Qed.

(** the index as the code resolves it *)
Definition code_disk (h : list ftd_args) (i : Z) : option ftd_args := nthZ h (getEquivLayer (ftd_made h) i).
Lemma equiv_made : forall h i, getEquivLayer (ftd_made h) i = if (6 <? i)%Z then (i - Z.of_nat (List.length h))%Z else i.
Proof. intros. unfold getEquivLayer. rewrite made_n. reflexivity. Qed.

(** when the code resolves the index as documented *)
Lemma resolves : forall h i, 
  let N := Z.of_nat (List.length h) in
  (i <= 6 /\ i < N \/ 6 < i /\ N <= i \/ i < 0 \/ 2 * N <= i)%Z ->
  code_disk h i = omap fst (disk h i) /\
  (forall a mir, disk h i = Some (a, mir) -> (getEquivLayer (ftd_made h) i =? i)%Z = negb mir).
Proof.
  intros h i N H. unfold code_disk, disk, documented. rewrite !equiv_made. fold N.
  assert (HN : (0 <= N)%Z) by (unfold N; lia).
  destruct (Z.ltb_spec 6 i) as [L|L].
  - destruct (Z.leb_spec 0 i); [|lia]. destruct (Z.ltb_spec i N) as [L2|L2]; cbn [andb]; [lia|].
    destruct (Z.leb_spec N i); [|lia]. destruct (Z.ltb_spec i (2 * N)) as [L3|L3]; cbn [andb].
    + rewrite nthZ_nth by lia. destruct (nth_error h (Z.to_nat (i - N))) as [a|] eqn:E; cbn.
      * split; [reflexivity|]. intros a' mir X. injection X as <- <-. cbn. apply Z.eqb_neq.
        intros Q. assert (N = 0)%Z by lia. lia.
      * split; [reflexivity|discriminate].
    + rewrite nthZ_out by lia. split; [reflexivity|discriminate].
  - destruct (Z.leb_spec 0 i) as [L1|L1]; cbn [andb].
    + destruct (Z.ltb_spec i N) as [L2|L2].
      * rewrite nthZ_nth by lia. destruct (nth_error h (Z.to_nat i)) as [a|] eqn:E; cbn.
        { split; [reflexivity|]. intros a' mir X. injection X as <- <-. cbn. apply Z.eqb_refl. }
        { split; [reflexivity|discriminate]. }
      * assert (2 * N <= i)%Z by lia. destruct (Z.leb_spec N i); [|lia]. destruct (Z.ltb_spec i (2 * N)); [lia|].
        cbn [andb]. rewrite nthZ_out by lia. split; [reflexivity|discriminate].
    + destruct (Z.leb_spec N i); [lia|]. cbn [andb]. rewrite nthZ_out by lia. split; [reflexivity|discriminate].
Qed.
(** with seven disks this is always the case *)
Lemma seven : forall (h : list ftd_args) i, List.length h = 7%nat ->
  let N := Z.of_nat (List.length h) in (i <= 6 /\ i < N \/ 6 < i /\ N <= i \/ i < 0 \/ 2 * N <= i)%Z.
Proof. intros h i H N. unfold N. rewrite H. cbn. lia. Qed.
(** and otherwise an existing disk is not found *)
Lemma not_found : forall h i, let N := Z.of_nat (List.length h) in
  (0 <= i < 2 * N)%Z -> ~ (i <= 6 /\ i < N \/ 6 < i /\ N <= i)%Z ->
  code_disk h i = None /\ disk h i <> None.
Proof.
  intros h i N H1 H2. unfold code_disk, disk, documented. rewrite equiv_made. fold N.
  destruct (Z.leb_spec 0 i); [|lia]. destruct (Z.ltb_spec 6 i) as [L|L].
  - destruct (Z.ltb_spec i N) as [L2|L2]; [|lia]. cbn [andb]. rewrite nthZ_out by lia. split; [reflexivity|].
    destruct (nth_error h (Z.to_nat i)) eqn:E; [discriminate|]. apply nth_error_None in E. lia.
  - destruct (Z.ltb_spec i N) as [L2|L2]; [lia|]. cbn [andb]. destruct (Z.leb_spec N i); [|lia].
    destruct (Z.ltb_spec i (2 * N)); [|lia]. cbn [andb]. rewrite nthZ_out by lia. split; [reflexivity|].
    destruct (nth_error h (Z.to_nat (i - N))) eqn:E; [discriminate|]. apply nth_error_None in E. lia.
Qed.

Lemma sup_at : forall h i, at_ (f_lVec (ftd_made h)) (getEquivLayer (ftd_made h) i) =
  match code_disk h i with Some a => Ok (sup a) | None => Throw (EOutOfRange "vector::at") end.
Proof. intros. unfold at_. rewrite (proj1 (made_vecs h)), nthZ_map. unfold code_disk. destruct (nthZ h _); reflexivity. Qed.
Lemma sen_at : forall h i, at_ (f_sVec (ftd_made h)) (getEquivLayer (ftd_made h) i) =
  match code_disk h i with Some a => Ok (sen a) | None => Throw (EOutOfRange "vector::at") end.
Proof. intros. unfold at_. rewrite (proj2 (made_vecs h)), nthZ_map. unfold code_disk. destruct (nthZ h _); reflexivity. Qed.
Lemma sup_answers : forall A (g : flayer -> A) (g' : ftd_args -> A) h i, (forall a, g (sup a) = g' a) ->
  answers (of_support g (ftd_made h) i) (omap g' (code_disk h i)).
Proof. intros A g g' h i E. unfold of_support. rewrite sup_at. destruct (code_disk h i); cbn; [now rewrite E|eauto]. Qed.
Lemma sen_answers : forall A (g : flayer -> A) (g' : ftd_args -> A) h i, (forall a, g (sen a) = g' a) ->
  answers (of_sensitive g (ftd_made h) i) (omap g' (code_disk h i)).
Proof. intros A g g' h i E. unfold of_sensitive. rewrite sen_at. destruct (code_disk h i); cbn; [now rewrite E|eauto]. Qed.


Lemma ftd_values : forall h i, in_documented_range h i ->
  let d := omap fst (disk h i) in let f := ftd_made h in
  answers (ftd_getNPetals f i) (omap a_nPetals d) /\ answers (ftd_getNSensors f i) (omap a_nSensors d) /\
  answers (ftd_isDoubleSided f i) (omap a_double d) /\ answers (ftd_getSensorType f i) (omap a_type d) /\
  answers (ftd_getPhiHalfDistance f i) (omap a_open d) /\ answers (ftd_getPhi0 f i) (omap a_phi0 d) /\
  answers (ftd_getAlpha f i) (omap a_alpha d) /\ answers (ftd_getZposition f i) (omap a_z d) /\
  answers (ftd_getZoffset f i) (omap a_zoff d) /\ answers (ftd_getZoffsetSign0 f i) (omap a_zsign d) /\
  answers (ftd_getSupportRinner f i) (omap a_supR d) /\ answers (ftd_getSupportThickness f i) (omap a_supT d) /\
  answers (ftd_getSupportLengthMin f i) (omap a_supMin d) /\ answers (ftd_getSupportLengthMax f i) (omap a_supMax d) /\
  answers (ftd_getSupportWidth f i) (omap a_supW d) /\ answers (ftd_getSupportRadLength f i) (omap a_supRad d) /\
  answers (ftd_getSensitiveRinner f i) (omap a_senR d) /\ answers (ftd_getSensitiveThickness f i) (omap a_senT d) /\
  answers (ftd_getSensitiveLengthMin f i) (omap a_senMin d) /\ answers (ftd_getSensitiveLengthMax f i) (omap a_senMax d) /\
  answers (ftd_getSensitiveWidth f i) (omap a_senW d) /\ answers (ftd_getSensitiveRadLength f i) (omap a_senRad d).
Proof.
  intros h i H d f. unfold d, f. rewrite <- (proj1 (resolves h i H)).
  repeat match goal with |- _ /\ _ => split end;
    first [apply sup_answers; reflexivity | apply sen_answers; reflexivity].
Qed.
Lemma ftd_count : forall h, ftd_getNLayers (ftd_made h) = Z.of_nat (List.length h).
Proof. exact made_n. Qed.
(** with seven disks every index is resolved as documented *)
Lemma ftd_seven : forall h i, List.length h = 7%nat -> in_documented_range h i.
Proof. intros. now apply seven. Qed.
(** other numbers of disks: documented indices that throw *)
Lemma ftd_not_seven : forall h i, let N := Z.of_nat (List.length h) in (0 <= i < 2 * N)%Z -> ~ in_documented_range h i ->
  disk h i <> None /\
  (exists e, ftd_getZposition (ftd_made h) i = Throw (EOutOfRange e)) /\
  (forall p, exists e, ftd_getSupportZposition (ftd_made h) i p = Throw (EOutOfRange e)) /\
  (forall p s, exists e, ftd_getSensitiveZposition (ftd_made h) i p s = Throw (EOutOfRange e)).
Proof.
  intros h i N H1 H2. destruct (not_found h i H1) as [A B]; [unfold in_documented_range in H2; fold N in H2; lia|].
  split; [exact B|]. 
  assert (S : forall p, exists e, ftd_getSupportZposition (ftd_made h) i p = Throw (EOutOfRange e)).
  { intros p. unfold ftd_getSupportZposition. rewrite sup_at, A. cbn. eauto. }
  split; [unfold ftd_getZposition, of_support; rewrite sup_at, A; cbn; eauto|]. split; [exact S|].
  intros p s. destruct (S p) as [e E]. unfold ftd_getSensitiveZposition. rewrite E. cbn. eauto.
Qed.
Lemma ftd_not_seven_exists : forall h, h <> [] -> List.length h <> 7%nat -> exists i,
  (0 <= i < 2 * Z.of_nat (List.length h))%Z /\ ~ in_documented_range h i.
Proof.
  intros h H1 H2. destruct h as [|a t]; [contradiction|]. set (N := Z.of_nat (List.length (a :: t))).
  assert (HN : (1 <= N)%Z) by (unfold N; cbn [List.length]; lia). assert (N <> 7)%Z by (unfold N; lia).
  unfold in_documented_range. fold N. destruct (Z.lt_ge_cases N 7).
  - exists N. lia.
  - exists 7%Z. lia.
Qed.

(** ** positions *)
Lemma to_int_sign : forall a petal, sign_ok a ->
  exists s, to_int (a_zsign a * minus_one_to petal) = Ok s /\ IZR s = a_zsign a * minus_one_to petal.
Proof.
  intros a petal H. unfold minus_one_to.
  assert (Q : (if Z.even petal then 1 else -1) = 1 \/ (if Z.even petal then 1 else -1) = -1) by (destruct (Z.even petal); auto).
  assert (W : a_zsign a * (if Z.even petal then 1 else -1) = IZR 1 \/ a_zsign a * (if Z.even petal then 1 else -1) = IZR (-1)).
  { destruct H as [-> | ->], Q as [-> | ->]; [left|right|right|left]; lra. }
  destruct W as [W|W]; rewrite W; unfold to_int; rewrite Ztrunc_IZR; eexists; split; reflexivity.
Qed.
Lemma support_z_val : forall h i petal a mir, in_documented_range h i -> disk h i = Some (a, mir) -> sign_ok a ->
  ftd_getSupportZposition (ftd_made h) i petal = Ok (at_side mir (petal_z a petal)).
Proof.
  intros h i petal a mir H D S. destruct (resolves h i H) as [A B]. unfold ftd_getSupportZposition.
  rewrite sup_at, A, D. cbn [omap rbind fst sup l_zsign l_z l_zoff]. destruct (to_int_sign a petal S) as (s & E1 & E2).
  rewrite E1. cbn [rbind]. rewrite E2, (B a mir D). f_equal. unfold petal_z, at_side, minus_one_to.
  destruct mir, (Z.even petal); cbn [negb]; ring.
Qed.
Lemma support_z : forall h i petal, in_documented_range h i -> (forall a mir, disk h i = Some (a, mir) -> sign_ok a) ->
  answers (ftd_getSupportZposition (ftd_made h) i petal)
    (omap (fun am => at_side (snd am) (petal_z (fst am) petal)) (disk h i)).
Proof.
  intros h i petal H S. destruct (disk h i) as [[a mir]|] eqn:D; cbn [omap fst snd answers].
  - eapply support_z_val; eauto.
  - unfold ftd_getSupportZposition. rewrite sup_at. destruct (resolves h i H) as [A _]. rewrite A, D. cbn. eauto.
Qed.
(** A sign that is not an integer is cut: the displacement is lost. *)
Lemma support_z_sign_cut : forall h i petal a mir, in_documented_range h i -> disk h i = Some (a, mir) -> -1 < a_zsign a < 1 ->
  ftd_getSupportZposition (ftd_made h) i petal = Ok (at_side mir (a_z a)).
Proof.
  intros h i petal a mir H D S. destruct (resolves h i H) as [A B]. unfold ftd_getSupportZposition.
  rewrite sup_at, A, D. cbn [omap rbind fst sup l_zsign l_z l_zoff]. unfold to_int.
  assert (T : Ztrunc (a_zsign a * minus_one_to petal) = 0%Z).
  { unfold minus_one_to. assert (G : forall x, -1 < x < 1 -> Ztrunc x = 0%Z).
    { intros x Hx. destruct (Rle_dec 0 x).
      - rewrite Ztrunc_floor by auto. apply Zfloor_imp. cbn. lra.
      - rewrite Ztrunc_ceil by lra. apply Zceil_imp. cbn. lra. }
    apply G. destruct (Z.even petal); lra. }
  rewrite T. cbn [int_okb Z.leb Z.compare andb rbind]. rewrite (B a mir D). f_equal. unfold at_side. destruct mir; cbn [negb]; ring.
Qed.

Lemma sensitive_z : forall h i petal s a mir, in_documented_range h i -> disk h i = Some (a, mir) -> sign_ok a ->
  petal_z a petal <> 0 ->
  ((1 <= s <= a_nSensors a)%Z -> ftd_getSensitiveZposition (ftd_made h) i petal s = Ok (sensor_z a mir petal s)) /\
  (~ (1 <= s <= a_nSensors a)%Z -> exists e, ftd_getSensitiveZposition (ftd_made h) i petal s = Throw (EGear e)).
Proof.
  intros h i petal s a mir H D S NZ. unfold ftd_getSensitiveZposition. rewrite (support_z_val _ _ _ _ _ H D S). cbn [rbind].
  set (z := at_side mir (petal_z a petal)). assert (Z0 : z <> 0) by (unfold z, at_side; destruct mir; lra).
  destruct (Reqb_spec z 0); [contradiction|].
  assert (SG : to_int (z / Rabs z) = Ok (if Rltb 0 z then 1%Z else (-1)%Z)).
  { destruct (Rltb_spec 0 z).
    - rewrite Rabs_pos_eq by lra. replace (z / z) with (IZR 1) by (field; lra). unfold to_int. rewrite Ztrunc_IZR. reflexivity.
    - rewrite Rabs_left by lra. replace (z / - z) with (IZR (-1)) by (field; lra). unfold to_int. rewrite Ztrunc_IZR. reflexivity. }
  rewrite SG. cbn [rbind]. rewrite sup_at, sen_at, (proj1 (resolves h i H)), D. cbn [omap fst rbind sup sen l_double l_nSensors l_thick].
  split.
  - intros Hs. destruct (Z.ltb_spec (a_nSensors a) s); [lia|]. destruct (Z.ltb_spec s 1); [lia|]. cbn [orb].
    f_equal. unfold sensor_z, on_back. fold z. rewrite Z.quot_div_nonneg by lia.
    destruct (Rltb 0 z), (a_double a && (a_nSensors a / 2 <? s)%Z)%bool; cbn [Z.opp]; lra.
  - intros Hs. destruct (Z.ltb_spec (a_nSensors a) s); [cbn; eauto|]. destruct (Z.ltb_spec s 1); [cbn; eauto|lia].
Qed.
(** seen from the interaction point *)
Lemma sensor_distance : forall a mir petal s, 0 <= a_supT a + a_senT a -> (a_supT a + a_senT a) / 2 <= petal_z a petal -> petal_z a petal <> 0 ->
  Rabs (sensor_z a mir petal s) =
    if on_back a s then petal_z a petal + (a_supT a + a_senT a) / 2 else petal_z a petal - (a_supT a + a_senT a) / 2.
Proof.
  intros a mir petal s T P NZ. unfold sensor_z, at_side. set (z := petal_z a petal) in *. set (d := (a_supT a + a_senT a) / 2) in *.
  assert (0 <= d) by (unfold d; lra). assert (0 < z) by lra.
  destruct mir; rcase; try lra; destruct (on_back a s);
    match goal with |- Rabs ?x = _ => destruct (Rle_dec 0 x); [rewrite Rabs_pos_eq by lra|rewrite Rabs_left by lra] end; lra.
Qed.
(** mirror symmetry of a detector with seven disks *)
Lemma disk_mirror : forall h i, (0 <= i < Z.of_nat (List.length h))%Z ->
  exists a, nth_error h (Z.to_nat i) = Some a /\ disk h i = Some (a, false) /\ disk h (i + Z.of_nat (List.length h)) = Some (a, true).
Proof.
  intros h i H. unfold disk, documented. set (N := Z.of_nat (List.length h)) in *.
  destruct (nth_error h (Z.to_nat i)) as [a|] eqn:E.
  - exists a. split; [reflexivity|]. destruct (Z.leb_spec 0 i); [|lia]. destruct (Z.ltb_spec i N); [|lia]. cbn [andb]. rewrite E. split; [reflexivity|].
    destruct (Z.leb_spec 0 (i + N)); [|lia]. destruct (Z.ltb_spec (i + N) N); [lia|]. cbn [andb].
    destruct (Z.leb_spec N (i + N)); [|lia]. destruct (Z.ltb_spec (i + N) (2 * N)); [|lia]. cbn [andb].
    replace (i + N - N)%Z with i by lia. rewrite E. reflexivity.
  - apply nth_error_None in E. lia.
Qed.
Lemma mirror : forall h i petal s a, List.length h = 7%nat -> (0 <= i < 7)%Z -> nth_error h (Z.to_nat i) = Some a -> sign_ok a ->
  petal_z a petal <> 0 -> (1 <= s <= a_nSensors a)%Z ->
  (exists z, ftd_getSupportZposition (ftd_made h) i petal = Ok z /\ ftd_getSupportZposition (ftd_made h) (i + 7) petal = Ok (- z)) /\
  (exists z, ftd_getSensitiveZposition (ftd_made h) i petal s = Ok z /\ ftd_getSensitiveZposition (ftd_made h) (i + 7) petal s = Ok (- z)) /\
  ftd_getPhiPetalCd (ftd_made h) (i + 7) petal = ftd_getPhiPetalCd (ftd_made h) i petal.
Proof.
  intros h i petal s a L Hi E S NZ Hs. assert (L7 : Z.of_nat (List.length h) = 7%Z) by (rewrite L; reflexivity).
  destruct (disk_mirror h i) as (a' & E' & D1 & D2); [lia|]. rewrite E in E'. injection E' as <-. rewrite L7 in D2.
  pose proof (ftd_seven h i L) as R1. pose proof (ftd_seven h (i + 7) L) as R2. split; [|split].
  - eexists. rewrite (support_z_val _ _ _ _ _ R1 D1 S), (support_z_val _ _ _ _ _ R2 D2 S). cbn [at_side]. auto.
  - eexists. rewrite (proj1 (sensitive_z _ _ _ s _ _ R1 D1 S NZ) Hs), (proj1 (sensitive_z _ _ _ s _ _ R2 D2 S NZ) Hs). split; [reflexivity|].
    f_equal. unfold sensor_z, at_side. rcase; rcase; destruct (on_back a s); lra.
  - unfold ftd_getPhiPetalCd. rewrite !sup_at, (proj1 (resolves h i R1)), (proj1 (resolves h (i + 7) R2)), D1, D2. reflexivity.
Qed.

Lemma petal_phi : forall h i petal, in_documented_range h i ->
  answers (ftd_getPhiPetalCd (ftd_made h) i petal)
          (omap (fun am => a_phi0 (fst am) + IZR petal * (2 * a_open (fst am))) (disk h i)).
Proof.
  intros h i petal H. unfold ftd_getPhiPetalCd. rewrite sup_at, (proj1 (resolves h i H)).
  destruct (disk h i) as [[a mir]|]; cbn; [f_equal; ring|eauto].
Qed.
(** getMaxRadius knows only the indices of the disks that were added *)
Lemma max_radius : forall h i sensitive,
  answers (ftd_getMaxRadius (ftd_made h) i sensitive)
    (omap (fun a => if sensitive then a_senR a + a_senW a else a_supR a + a_supW a) (if (i <? 0)%Z then None else nth_error h (Z.to_nat i))).
Proof.
  intros h i sensitive. unfold ftd_getMaxRadius, at_. destruct sensitive.
  - rewrite (proj2 (made_vecs h)), nthZ_map. unfold nthZ. destruct (i <? 0)%Z; [cbn; eauto|]. destruct (nth_error h (Z.to_nat i)); cbn; eauto.
  - rewrite (proj1 (made_vecs h)), nthZ_map. unfold nthZ. destruct (i <? 0)%Z; [cbn; eauto|]. destruct (nth_error h (Z.to_nat i)); cbn; eauto.
Qed.
Lemma max_radius_mirror : forall h i sensitive, (Z.of_nat (List.length h) <= i)%Z ->
  exists e, ftd_getMaxRadius (ftd_made h) i sensitive = Throw (EOutOfRange e).
Proof.
  intros h i sensitive H. pose proof (max_radius h i sensitive) as A. destruct (Z.ltb_spec i 0); [lia|].
  destruct (nth_error h (Z.to_nat i)) eqn:E; [|exact A]. exfalso. assert (nth_error h (Z.to_nat i) <> None) by congruence.
  apply nth_error_Some in H1. lia.
Qed.
Lemma perpendicular_thickness : forall h i sensitive a, nthZ h i = Some a ->
  ftd_getThicknessForAngle (ftd_made h) i (PI / 2) 0 sensitive = Ok (if sensitive then a_senT a else a_supT a).
Proof.
  intros h i sensitive a E. unfold ftd_getThicknessForAngle, at_.
  assert (X : 1 / (1 * 1) + 0 * 0 = 1) by field.
  destruct sensitive; [rewrite (proj2 (made_vecs h))|rewrite (proj1 (made_vecs h))]; rewrite nthZ_map, E; cbn [rbind];
    rewrite sin_PI2, cos_0, tan_0; destruct (Reqb_spec 1 0); try lra; cbn [orb]; rewrite X, sqrt_1; f_equal; cbn; ring.
Qed.
(** frames *)
Lemma frame_subscripts : forall i n, In (i, n) getframe_subscripts -> (n <= i)%Z.
Proof. intros i n H. cbn in H. destruct H as [H|[H|[H|[]]]]; injection H as <- <-; lia. Qed.

(** ** look-up *)
Lemma lookup_never : forall f p sensitive,
  ftd_getLayerIndex f p = (-1)%Z /\ ftd_getSensitiveIndex f p = (-1)%Z /\ ftd_getPetalIndex f p sensitive = Ok (-1)%Z /\
  isPointInFTD f p sensitive = Ok false.
Proof. intros. repeat split. destruct sensitive; reflexivity. Qed.
