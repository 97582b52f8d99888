(** Proofs about forward disks in files (C37). *)
From Coq Require Import ZArith List String Ascii Bool Reals Lia Lra.
From Verif Require Import Base BaseProofs RBase VecModel XmlModel XmlSpec XmlProofs NumModel NumSpec NumProofs HxModel HxSpec HxProofs
  ParamsModel ParamsSpec ParamsProofs ParXmlModel ParXmlSpec ParXmlProofs FtdModel FtdSpec FtdProofs
  TrkModel TrkXmlModel TrkXmlSpec TrkXmlProofs.
Import ListNotations.
Open Scope list_scope.
Open Scope R_scope.

Definition fpart_pairs (t w m x i r : R) : list (string * string) :=
  [("thickness", print_double t); ("width", print_double w); ("lengthMin", print_double m);
   ("lengthMax", print_double x); ("rInner", print_double i); ("radLength", print_double r)]%string.
Lemma fpart_pairs_ok : forall t w m x i r, pairs_ok (fpart_pairs t w m x i r).
Proof. intros. pairs. Qed.
Definition flayer_pairs (a : ftd_args) : list (string * string) :=
  [("nPetals", print_int (a_nPetals a)); ("nSensors", print_int (a_nSensors a));
   ("isDoubleSided", print_int (if a_double a then 1 else 0)); ("sensorType", sensor_type (a_type a));
   ("petalOpenningAngle", print_double (a_open a)); ("phi0", print_double (a_phi0 a)); ("alpha", print_double (a_alpha a));
   ("zoffset", print_double (a_zoff a)); ("zsign0", print_double (a_zsign a)); ("zposition", print_double (a_z a))]%string.
Lemma sensor_clean : forall t, clean (sensor_type t).
Proof. intros t. unfold sensor_type. repeat match goal with |- context[if ?b then _ else _] => destruct b end; apply plain_clean; reflexivity. Qed.
Lemma flayer_pairs_ok : forall a, pairs_ok (flayer_pairs a).
Proof. intros a. pose proof (sensor_clean (a_type a)). pairs. Qed.
Definition felem (a : ftd_args) : xnode :=
  XElem "layer" (attrs_of (flayer_pairs a))
    [XElem "support" (attrs_of (fpart_pairs (a_supT a) (a_supW a) (a_supMin a) (a_supMax a) (a_supR a) (a_supRad a))) [];
     XElem "sensitive" (attrs_of (fpart_pairs (a_senT a) (a_senW a) (a_senMin a) (a_senMax a) (a_senR a) (a_senRad a))) []].
Lemma felem_writable : forall a, writable (felem a) /\ is_elem (felem a) = true.
Proof.
  intros a. split; [|reflexivity]. apply node_writable; [reflexivity | apply flayer_pairs_ok|].
  intros x [<-|[<-|[]]]; (split; [apply leaf_writable; [reflexivity | apply fpart_pairs_ok] | reflexivity]).
Qed.

Lemma ftd_elem_at : forall h i a, nth_error h i = Some a -> (List.length h <= 7)%nat ->
  ftd_layer_elem (ftd_made h) (Z.of_nat i) = Ok (felem a).
Proof.
  intros h i a H L. assert (I : (i < List.length h)%nat) by (apply nth_error_Some; congruence).
  unfold ftd_layer_elem, ftd_getNPetals, ftd_getNSensors, ftd_isDoubleSided, ftd_getSensorType, ftd_getPhiHalfDistance, ftd_getPhi0, ftd_getAlpha, ftd_getZposition,
    ftd_getZoffset, ftd_getZoffsetSign0, ftd_getSupportRinner, ftd_getSupportRadLength, ftd_getSupportThickness, ftd_getSupportLengthMin, ftd_getSupportLengthMax,
    ftd_getSupportWidth, ftd_getSensitiveRinner, ftd_getSensitiveRadLength, ftd_getSensitiveThickness, ftd_getSensitiveLengthMin, ftd_getSensitiveLengthMax,
    ftd_getSensitiveWidth, of_support, of_sensitive.
  destruct (made_vecs h) as [-> ->]. rewrite equiv_made. destruct (Z.ltb_spec 6 (Z.of_nat i)); [lia|].
  rewrite (at_nat _ i (sup a)) by (rewrite nth_error_map, H; reflexivity).
  rewrite (at_nat _ i (sen a)) by (rewrite nth_error_map, H; reflexivity). reflexivity.
Qed.

Lemma read_felem : forall f a, disk_ints a -> disk_type a -> read_flayer f (felem a) = Ok (ftd_addLayer f (reread_disk a)).
Proof.
  intros f a [N1 N2] T. unfold read_flayer, felem, get_int, get_double. pose proof (flayer_pairs_ok a) as P. unfold flayer_pairs in P |- *.
  assert (N3 : is_int (if a_double a then 1 else 0)) by (destruct (a_double a); unfold is_int; lia). steps P.
  assert (Ty : (if String.eqb (sensor_type (a_type a)) "PIXEL" then Ok 1%Z else if String.eqb (sensor_type (a_type a)) "STRIP" then Ok 2%Z
     else Throw (EGear (sensor_type (a_type a)))) = Ok (a_type a)) by (destruct T as [-> | ->]; reflexivity).
  rewrite Ty. cbn [rbind]. clear Ty. steps P. clear P. cbv zeta.
  change (FirstChildElement "support" _) with (Some (XElem "support" (attrs_of (fpart_pairs (a_supT a) (a_supW a) (a_supMin a) (a_supMax a) (a_supR a) (a_supRad a))) [])).
  change (FirstChildElement "sensitive" _) with (Some (XElem "sensitive" (attrs_of (fpart_pairs (a_senT a) (a_senW a) (a_senMin a) (a_senMax a) (a_senR a) (a_senRad a))) [])).
  unfold double_of, attr_of.
  pose proof (fpart_pairs_ok (a_supT a) (a_supW a) (a_supMin a) (a_supMax a) (a_supR a) (a_supRad a)) as P1.
  pose proof (fpart_pairs_ok (a_senT a) (a_senW a) (a_senMin a) (a_senMax a) (a_senR a) (a_senRad a)) as P2.
  unfold fpart_pairs in *.
  steps P1. steps P2.
  unfold reread_disk. assert (D : negb ((if a_double a then 1 else 0) =? 0)%Z = a_double a) by (destruct (a_double a); reflexivity). rewrite D. reflexivity.
Qed.
Lemma read_felem_bad : forall f a, disk_ints a -> ~ disk_type a -> read_flayer f (felem a) = Throw (EGear "Unknown").
Proof.
  intros f a [N1 N2] T. unfold read_flayer, felem, get_int, get_double. pose proof (flayer_pairs_ok a) as P. unfold flayer_pairs in P |- *.
  assert (N3 : is_int (if a_double a then 1 else 0)) by (destruct (a_double a); unfold is_int; lia). steps P.
  unfold sensor_type. destruct (Z.eqb_spec (a_type a) 1); [destruct T; left; assumption|].
  destruct (Z.eqb_spec (a_type a) 2); [destruct T; right; assumption|]. reflexivity.
Qed.

Lemma ftd_element : forall h p, sorted_params p -> (List.length h <= 7)%nat ->
  ftd_toXML (ftd_made h, p) = Ok (XElem "detector" (attrs_of []) ([XElem "layers" [] (map felem h)] ++ all_elems p)).
Proof.
  intros h p S L. unfold ftd_toXML. rewrite made_n.
  rewrite (rall_indices _ felem h) by (intros i x H; apply ftd_elem_at; assumption).
  cbn [rbind]. rewrite to_xml_elems by exact S. reflexivity.
Qed.

Lemma ftd_fixed_writable : forall h x, In x [XElem "layers" [] (map felem h)] -> writable x /\ is_elem x = true.
Proof.
  intros h x [<-|[]]. split; [|reflexivity]. apply (node_writable "layers" []); [reflexivity | apply no_pairs|].
  intros x I. apply in_map_iff in I. destruct I as [a [<- _]]. apply felem_writable.
Qed.

Lemma ftd_read0 : forall at0 h p, sorted_params p -> text_ok_params p ->
  ftd_fromXML (XElem "detector" at0 ([XElem "layers" [] (map felem h)] ++ all_elems p)) =
  rbind (rfold read_flayer (map felem h) new_ftd) (fun f => Ok (f, back p)).
Proof.
  intros at0 h p S T. unfold ftd_fromXML. rewrite det_child by (assumption || discriminate).
  change (FirstChildElement "layers" _) with (Some (XElem "layers" [] (map felem h))). unfold iterate_of. cbn [rbind].
  assert (I : IterateChildren "layer" (XElem "layers" [] (map felem h)) = map felem h).
  { unfold IterateChildren. apply filter_all. intros x I. apply in_map_iff in I. destruct I as [a [<- _]]. reflexivity. }
  rewrite I. rewrite det_params; [|assumption | assumption | intros x [<-|[]]; discriminate].
  destruct (rfold _ _ _); reflexivity.
Qed.

Lemma ftd_read : forall at0 h p, sorted_params p -> text_ok_params p -> (forall a, In a h -> disk_ints a /\ disk_type a) ->
  ftd_fromXML (XElem "detector" at0 ([XElem "layers" [] (map felem h)] ++ all_elems p)) = Ok (ftd_made (map reread_disk h), back p).
Proof.
  intros at0 h p S T N. rewrite ftd_read0 by assumption.
  rewrite (rfold_each _ _ (fun f a => ftd_addLayer f (reread_disk a))) by (intros s a A; apply read_felem; apply N; exact A).
  unfold ftd_made. rewrite fold_map. reflexivity.
Qed.

Lemma reload_ftd : forall h p, sorted_params p -> text_ok_params p -> (List.length h <= 7)%nat -> (forall a, In a h -> disk_ints a) ->
  reload ftd_toXML ftd_fromXML (ftd_made h, p) = rbind (rfold read_flayer (map felem h) new_ftd) (fun f => Ok (f, back p)).
Proof.
  intros h p S T L N. unfold reload. rewrite ftd_element by assumption. cbn [rbind].
  rewrite via_writable; [|apply det_writable; [reflexivity | apply no_pairs | exact S | exact T | apply ftd_fixed_writable] | reflexivity].
  cbn [rbind]. apply ftd_read0; assumption.
Qed.

Lemma ftd_made_eta : forall h, ftd_made h = mkFtd (map sup h) (map sen h).
Proof. intros h. destruct (made_vecs h) as [A B]. destruct (ftd_made h); cbn in *. subst. reflexivity. Qed.

Lemma rfold_bad : forall {A S} (f : S -> A -> result S) (bad : A -> Prop) e l, (forall s x, In x l -> (bad x /\ f s x = Throw e) \/ exists s', f s x = Ok s') ->
  (exists x, In x l /\ bad x) -> (forall x s, In x l -> bad x -> f s x = Throw e) -> forall s, rfold f l s = Throw e.
Proof.
  intros A S f bad e l. induction l as [|x l IH]; intros H [y [Y B]] C s; [destruct Y|]. cbn.
  destruct (H s x (or_introl eq_refl)) as [[_ E]|[s' E]]; rewrite E; [reflexivity|]. cbn [rbind]. apply IH.
  - intros t z Z. apply H. right. exact Z.
  - destruct Y as [<-|Y]; [rewrite (C _ s (or_introl eq_refl) B) in E; discriminate|]. exists y. auto.
  - intros z t Z. apply C. right. exact Z.
Qed.

Lemma disk_type_dec : forall a, disk_type a \/ ~ disk_type a.
Proof. intros a. unfold disk_type. destruct (Z.eq_dec (a_type a) 1), (Z.eq_dec (a_type a) 2); intuition. Qed.

Lemma disks_unknown : forall h hp a, (List.length h <= 7)%nat -> storable (after hp) -> (forall a, In a h -> disk_ints a) ->
  In a h -> ~ disk_type a -> reload ftd_toXML ftd_fromXML (ftd_made h, after hp) = Throw (EGear "Unknown").
Proof.
  intros h hp a L SP N IA T. rewrite reload_ftd by (try apply after_sorted; try apply storable_text; assumption).
  rewrite (rfold_bad read_flayer (fun x => exists b, In b h /\ x = felem b /\ ~ disk_type b) (EGear "Unknown") (map felem h)).
  - reflexivity.
  - intros s x I. apply in_map_iff in I. destruct I as [b [<- B]]. destruct (disk_type_dec b) as [D|D].
    + right. exists (ftd_addLayer s (reread_disk b)). apply read_felem; auto.
    + left. split; [eauto|]. apply read_felem_bad; auto.
  - exists (felem a). split; [apply in_map; exact IA|]. eauto.
  - intros x s _ [b [B [-> D]]]. apply read_felem_bad; auto.
Qed.

Lemma disks_back : forall h hp, (List.length h <= 7)%nat -> storable (after hp) -> (forall a, In a h -> disk_ints a /\ disk_type a) ->
  exists p', reload ftd_toXML ftd_fromXML (ftd_made h, after hp) = Ok (ftd_made (map reread_disk h), p').
Proof.
  intros h hp L SP N. rewrite reload_ftd; [| apply after_sorted | apply storable_text; assumption | assumption | intros a A; apply N; exact A].
  rewrite (rfold_each _ _ (fun f a => ftd_addLayer f (reread_disk a))) by (intros s a A; apply read_felem; apply N; exact A).
  cbn [rbind]. unfold ftd_made. rewrite fold_map. eexists. reflexivity.
Qed.

(** the eighth disk cannot be written *)
Lemma rall_throw : forall {A B} (f : A -> result B) l1 x l2 e, (forall y, In y l1 -> exists z, f y = Ok z) -> f x = Throw e -> rall f (l1 ++ x :: l2) = Throw e.
Proof.
  intros A B f l1 x l2 e. induction l1 as [|y l1 IH]; intros H E; cbn; [rewrite E; reflexivity|].
  destruct (H y (or_introl eq_refl)) as [z ->]. cbn [rbind]. rewrite IH; [reflexivity | intros w W; apply H; right; exact W | exact E].
Qed.
Lemma disks_many : forall h hp, (7 < List.length h)%nat -> reload ftd_toXML ftd_fromXML (ftd_made h, after hp) = Throw (EOutOfRange "vector::at").
Proof.
  intros h hp L. unfold reload, ftd_toXML. rewrite made_n. unfold indices. rewrite Nat2Z.id.
  assert (SQ : seq 0 (List.length h) = seq 0 7 ++ 7%nat :: seq 8 (List.length h - 8)).
  { replace (List.length h) with (7 + S (List.length h - 8))%nat at 1 by lia. rewrite seq_app. reflexivity. }
  rewrite SQ, map_app. cbn [map]. rewrite (rall_throw (ftd_layer_elem (ftd_made h)) (map Z.of_nat (seq 0 7)) (Z.of_nat 7) _ (EOutOfRange "vector::at")).
  - reflexivity.
  - intros y Y. apply in_map_iff in Y. destruct Y as [i [<- I]]. apply in_seq in I.
    destruct (nth_error h i) as [a|] eqn:E; [|apply nth_error_None in E; lia]. exists (felem a).
    unfold ftd_layer_elem, ftd_getNPetals, ftd_getNSensors, ftd_isDoubleSided, ftd_getSensorType, ftd_getPhiHalfDistance, ftd_getPhi0, ftd_getAlpha, ftd_getZposition,
      ftd_getZoffset, ftd_getZoffsetSign0, ftd_getSupportRinner, ftd_getSupportRadLength, ftd_getSupportThickness, ftd_getSupportLengthMin, ftd_getSupportLengthMax,
      ftd_getSupportWidth, ftd_getSensitiveRinner, ftd_getSensitiveRadLength, ftd_getSensitiveThickness, ftd_getSensitiveLengthMin, ftd_getSensitiveLengthMax,
      ftd_getSensitiveWidth, of_support, of_sensitive.
    destruct (made_vecs h) as [-> ->]. rewrite equiv_made. destruct (Z.ltb_spec 6 (Z.of_nat i)); [lia|].
    rewrite (at_nat _ i (sup a)) by (rewrite nth_error_map, E; reflexivity).
    rewrite (at_nat _ i (sen a)) by (rewrite nth_error_map, E; reflexivity). reflexivity.
  - unfold ftd_layer_elem, ftd_getNPetals, of_support. rewrite equiv_made. change (6 <? Z.of_nat 7)%Z with true. cbv iota.
    unfold at_, nthZ. destruct (Z.ltb_spec (Z.of_nat 7 - Z.of_nat (List.length h)) 0); [reflexivity|].
    change (Z.of_nat 7) with 7%Z in *. lia.
Qed.

Lemma disks_survive : forall h hp, let o := (ftd_made h, after hp) in
  storable (after hp) -> (forall a, In a h -> disk_ints a) ->
  (reload ftd_toXML ftd_fromXML o = Ok o <->
   (List.length h <= 7)%nat /\ (forall a, In a h -> disk_type a /\ kept_disk a) /\ survive (after hp)).
Proof.
  intros h hp o SP N. unfold o. destruct (Nat.leb_spec (List.length h) 7) as [L|L].
  - destruct (Classical_Prop.classic (exists a, In a h /\ ~ disk_type a)) as [[a [IA D]]|D].
    + rewrite (disks_unknown h hp a L SP N IA D). split; [discriminate|]. intros [_ [H _]]. destruct D. apply H. exact IA.
    + assert (DT : forall a, In a h -> disk_type a).
      { intros a A. destruct (disk_type_dec a) as [X|X]; [exact X|]. destruct D. eauto. }
      rewrite reload_ftd by (try apply after_sorted; try apply storable_text; assumption).
      rewrite (rfold_each _ _ (fun f a => ftd_addLayer f (reread_disk a))) by (intros s a A; apply read_felem; auto).
      cbn [rbind]. change (fold_left (fun f a => ftd_addLayer f (reread_disk a)) h new_ftd) with (fold_left (fun f a => ftd_addLayer f (reread_disk a)) h new_ftd).
      rewrite <- (fold_map ftd_addLayer reread_disk h new_ftd). fold (ftd_made (map reread_disk h)).
      pose proof (back_same_iff (after hp) (after_sorted hp)) as B. fold (survive (after hp)) in B. rewrite <- B.
      rewrite !ftd_made_eta, !map_map. split.
      * intros E. injection E as E1 E2 E3. split; [exact L|]. split; [|exact E3].
        intros a I. split; [apply DT; exact I|].
        pose proof (proj1 (map_eq_iff _ _ h) E1 a I) as L1. pose proof (proj1 (map_eq_iff _ _ h) E2 a I) as L2.
        injection L1. injection L2. intros. unfold kept_disk, kept. repeat split; assumption.
      * intros [_ [K ->]]. do 2 f_equal. f_equal; apply map_eq_iff; intros a I; destruct (K a I) as [_ KA];
          unfold kept_disk, kept in KA; unfold sup, sen, reread_disk, reread; cbn;
          repeat match type of KA with _ /\ _ => let Q := fresh in destruct KA as [Q KA]; rewrite ?Q end; rewrite ?KA; reflexivity.
  - rewrite disks_many by exact L. split; [discriminate|]. intros [H _]. lia.
Qed.
