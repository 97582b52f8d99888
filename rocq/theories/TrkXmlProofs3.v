(** Proofs about beam telescopes in files (C37). *)
From Coq Require Import ZArith List String Ascii Bool Reals Lia Lra.
From Flocq Require Import Core.
From Verif Require Import Base BaseProofs RBase VecModel XmlModel XmlSpec XmlProofs NumModel NumSpec NumProofs HxModel HxSpec HxProofs
  ParamsModel ParamsSpec ParamsProofs ParXmlModel ParXmlSpec ParXmlProofs TrkModel TrkXmlModel TrkXmlSpec TrkXmlProofs.
Import ListNotations.
Open Scope list_scope.
Open Scope R_scope.

(** ** The default values *)
Lemma kept_zero : kept 0.
Proof. apply (whole_kept 0). reflexivity. Qed.
Lemma atof_zero : atof "0." = 0.
Proof. unfold atof. change (read_decimal "0.") with (0%Z, 0%Z). cbv iota beta. unfold F2R. cbn [Fnum Fexp]. rewrite Rmult_0_l. apply to_double_zero. Qed.
Lemma minus_one_double : to_double (F2R (Float radix10 (-10) (-1))) = -1.
Proof.
  replace (F2R (Float radix10 (-10) (-1))) with (-1).
  - unfold to_double. apply round_generic; [apply valid_rnd_N|].
    apply generic_format_FLT. exists (Float radix2 (-1) 0); [unfold F2R; cbn; lra | cbn; lia | cbn; lia].
  - unfold F2R. cbn. lra.
Qed.
Lemma atof_minus : atof "-1.0" = -1.
Proof. unfold atof. change (read_decimal "-1.0") with ((-10)%Z, (-1)%Z). cbv iota beta. apply minus_one_double. Qed.
Lemma atof_minus_blank : atof " -1.0" = -1.
Proof. unfold atof. change (read_decimal " -1.0") with ((-10)%Z, (-1)%Z). cbv iota beta. apply minus_one_double. Qed.

(** ** Elements *)
Definition dutl_pairs (l : plate) : list (string * string) :=
  [("ID", print_int (pl_ID l)); ("positionX", print_double (pl_X l)); ("positionY", print_double (pl_Y l));
        ("positionZ", print_double (pl_Z l)); ("sizeX", print_double (pl_SX l)); ("sizeY", print_double (pl_SY l));
        ("thickness", print_double (pl_T l)); ("radLength", print_double (pl_Rad l))]%string.
Definition sens_pairs (e : sens) : list (string * string) :=
  let q := se_plate e in
  [("ID", print_int (pl_ID q)); ("positionX", print_double (pl_X q)); ("positionY", print_double (pl_Y q));
        ("positionZ", print_double (pl_Z q)); ("sizeX", print_double (pl_SX q)); ("sizeY", print_double (pl_SY q));
        ("thickness", print_double (pl_T q)); ("npixelX", print_int (se_NX e)); ("npixelY", print_int (se_NY e));
        ("pitchX", print_double (se_PX e)); ("pitchY", print_double (se_PY e)); ("resolution", print_double (se_Res e));
        ("rotation1", print_double (se_R1 e)); ("rotation2", print_double (se_R2 e)); ("rotation3", print_double (se_R3 e));
        ("rotation4", print_double (se_R4 e)); ("radLength", print_double (pl_Rad q))]%string.
Definition lad_pairs (l : plate) : list (string * string) :=
  [("ID", print_int (pl_ID l)); ("positionX", print_double (pl_X l)); ("positionY", print_double (pl_Y l));
        ("positionZ", print_double (pl_Z l)); ("rotationXY", print_double (pl_RXY l)); ("rotationZX", print_double (pl_RZX l));
        ("rotationZY", print_double (pl_RZY l)); ("sizeX", print_double (pl_SX l)); ("sizeY", print_double (pl_SY l));
        ("thickness", print_double (pl_T l)); ("radLength", print_double (pl_Rad l))]%string.
Lemma dutl_pairs_ok : forall l, pairs_ok (dutl_pairs l).
Proof. intros l. pairs. Qed.
Lemma sens_pairs_ok : forall e, pairs_ok (sens_pairs e).
Proof. intros e. pairs. Qed.
Lemma lad_pairs_ok : forall l, pairs_ok (lad_pairs l).
Proof. intros l. pairs. Qed.

Definition selem (le : plate * sens) : xnode :=
  XElem "layer" [] [XElem "ladder" (attrs_of (lad_pairs (fst le))) []; XElem "sensitive" (attrs_of (sens_pairs (snd le))) []].
Lemma dut_elem_eq : forall s, dut_elem s =
  XElem "dut" [] [XElem "dut_ladder" (attrs_of (dutl_pairs (si_dl s))) []; XElem "dut_sensitive" (attrs_of (sens_pairs (si_ds s))) []].
Proof. reflexivity. Qed.
Lemma selem_writable : forall le, writable (selem le) /\ is_elem (selem le) = true.
Proof.
  intros le. split; [|reflexivity]. apply (node_writable "layer" []); [reflexivity | apply no_pairs|].
  intros x [<-|[<-|[]]]; (split; [apply leaf_writable; [reflexivity | first [apply lad_pairs_ok | apply sens_pairs_ok]] | reflexivity]).
Qed.
Lemma dut_writable : forall s, writable (dut_elem s).
Proof.
  intros s. rewrite dut_elem_eq. apply (node_writable "dut" []); [reflexivity | apply no_pairs|].
  intros x [<-|[<-|[]]]; (split; [apply leaf_writable; [reflexivity | first [apply dutl_pairs_ok | apply sens_pairs_ok]] | reflexivity]).
Qed.

Definition si_fixed (s : siplanes) : list xnode :=
  [XElem "siplanesID" (attrs_of [("ID", print_int (si_id s))]) [];
   XElem "siplanesType" (attrs_of [("type", si_type_text (si_type s))]) [];
   XElem "siplanesNumber" (attrs_of [("number", print_int (si_num s))]) []]%string ++
  (if (si_type s =? 1)%Z then [dut_elem s] else []) ++ [XElem "layers" [] (map selem (combine (si_l s) (si_s s)))].

Lemma combine_nth_some : forall {A B} (l : list A) (m : list B) i x y, nth_error (combine l m) i = Some (x, y) -> nth_error l i = Some x /\ nth_error m i = Some y.
Proof.
  intros A B. induction l as [|a l IH]; intros [|b m] i x y H; try (destruct i; discriminate).
  destruct i as [|i]; cbn in *; [injection H as -> ->; auto | apply IH; exact H].
Qed.

Lemma si_element : forall s p, sorted_params p -> List.length (si_l s) = List.length (si_s s) ->
  si_toXML (s, p) = Ok (XElem "detector" (attrs_of []) (si_fixed s ++ all_elems p)).
Proof.
  intros s p S L. unfold si_toXML, si_getNLayers.
  assert (N : List.length (si_l s) = List.length (combine (si_l s) (si_s s))) by (rewrite combine_length, <- L, Nat.min_id; reflexivity).
  rewrite N. rewrite (rall_indices _ selem (combine (si_l s) (si_s s))).
  - cbn [rbind]. rewrite to_xml_elems by exact S. cbn [rbind]. unfold si_fixed. rewrite <- !app_assoc. reflexivity.
  - intros i [l e] H. apply combine_nth_some in H. destruct H as [H1 H2]. unfold si_layer_elem.
    rewrite (at_nat _ _ _ H1), (at_nat _ _ _ H2). reflexivity.
Qed.

Lemma si_text_clean : forall t, clean (si_type_text t).
Proof. intros t. unfold si_type_text. repeat match goal with |- context[if ?b then _ else _] => destruct b end; apply plain_clean; reflexivity. Qed.
Lemma id_pairs_ok : forall z, pairs_ok [("ID", print_int z)]%string. Proof. intros. pairs. Qed.
Lemma number_pairs_ok : forall z, pairs_ok [("number", print_int z)]%string. Proof. intros. pairs. Qed.
Lemma sitype_pairs_ok : forall z, pairs_ok [("type", si_type_text z)]%string. Proof. intros z. pose proof (si_text_clean z). pairs. Qed.

Lemma si_fixed_in : forall s x, In x (si_fixed s) -> (writable x /\ is_elem x = true) /\ Value x <> "parameter"%string.
Proof.
  intros s x I. unfold si_fixed in I. apply in_app_or in I. destruct I as [[<-|[<-|[<-|[]]]]|I].
  - split; [|discriminate]. split; [apply leaf_writable; [reflexivity | apply id_pairs_ok] | reflexivity].
  - split; [|discriminate]. split; [apply leaf_writable; [reflexivity | apply sitype_pairs_ok] | reflexivity].
  - split; [|discriminate]. split; [apply leaf_writable; [reflexivity | apply number_pairs_ok] | reflexivity].
  - apply in_app_or in I. destruct I as [I|[<-|[]]].
    + destruct (si_type s =? 1)%Z; [|destruct I]. destruct I as [<-|[]]. split; [|discriminate]. split; [apply dut_writable | reflexivity].
    + split; [|discriminate]. split; [|reflexivity]. apply (node_writable "layers" []); [reflexivity | apply no_pairs|].
      intros x I. apply in_map_iff in I. destruct I as [a [<- _]]. apply selem_writable.
Qed.

(** ** Reading *)
Lemma read_selem : forall s l e, is_int (pl_ID l) -> sens_ints e ->
  read_silayer s (selem (l, e)) = Ok (si_addLayer s (reread_plate l) (reread_sens e (reread (se_Res e)) (reread (se_Res e)))).
Proof.
  intros s l e N [E1 [E2 E3]]. unfold read_silayer, selem. cbn [fst snd].
  change (FirstChildElement "ladder" _) with (Some (XElem "ladder" (attrs_of (lad_pairs l)) [])).
  change (FirstChildElement "sensitive" _) with (Some (XElem "sensitive" (attrs_of (sens_pairs e)) [])).
  cbv zeta. unfold int_of, double_of, opt_double_of, attr_of, opt_attr_of.
  pose proof (lad_pairs_ok l) as P1. pose proof (sens_pairs_ok e) as P2. unfold lad_pairs in P1 |- *. unfold sens_pairs in P2 |- *. cbv zeta in P2 |- *.
  steps P1. steps P2.
  rewrite atof_zero, atof_minus, atof_minus_blank. assert (M : Rltb (-1) 0 = true) by (apply Rltb_true; lra). rewrite M.
  unfold reread_sens, reread_plate, unrotated. cbn [pl_ID pl_X pl_Y pl_Z pl_RXY pl_RZX pl_RZY pl_SX pl_SY pl_T pl_Rad].
  pose proof kept_zero as K0. unfold kept in K0. fold (reread 0) in K0. rewrite K0. reflexivity.
Qed.

Lemma read_dut_elem : forall s0 s a0 rest, is_int (pl_ID (si_dl s)) -> sens_ints (si_ds s) ->
  FirstChildElement "dut" (XElem "detector" a0 rest) = Some (dut_elem s) ->
  read_dut s0 (XElem "detector" a0 rest) =
  Ok (mkSi (si_l s0) (si_s s0) (reread_plate (unrotated (si_dl s))) (reread_sens (si_ds s) 0 0) (si_id s0) (si_type s0) (si_num s0)).
Proof.
  intros s0 s a0 rest N [E1 [E2 E3]] F. unfold read_dut. rewrite F, dut_elem_eq.
  change (FirstChildElement "dut_ladder" _) with (Some (XElem "dut_ladder" (attrs_of (dutl_pairs (si_dl s))) [])).
  change (FirstChildElement "dut_sensitive" _) with (Some (XElem "dut_sensitive" (attrs_of (sens_pairs (si_ds s))) [])).
  cbv zeta. unfold int_of, double_of, opt_double_of, attr_of, opt_attr_of.
  pose proof (dutl_pairs_ok (si_dl s)) as P1. pose proof (sens_pairs_ok (si_ds s)) as P2. unfold dutl_pairs in P1 |- *. unfold sens_pairs in P2 |- *. cbv zeta in P2 |- *.
  steps P1. steps P2. unfold si_addDUT, reread_sens, reread_plate, unrotated. cbn [pl_ID pl_X pl_Y pl_Z pl_RXY pl_RZX pl_RZY pl_SX pl_SY pl_T pl_Rad].
  pose proof kept_zero as K0. unfold kept in K0. fold (reread 0) in K0. rewrite K0. reflexivity.
Qed.

Lemma read_layers_si : forall l e s0, (forall x, In x l -> is_int (pl_ID x)) -> (forall x, In x e -> sens_ints x) -> List.length l = List.length e ->
  rfold read_silayer (map selem (combine l e)) s0 =
  Ok (mkSi (si_l s0 ++ map reread_plate l) (si_s s0 ++ map (fun e => reread_sens e (reread (se_Res e)) (reread (se_Res e))) e)
        (si_dl s0) (si_ds s0) (si_id s0) (si_type s0) (si_num s0)).
Proof.
  induction l as [|x l IH]; intros [|y e] s0 N E L; try discriminate.
  - cbn. rewrite !app_nil_r. destruct s0; reflexivity.
  - cbn [combine map rfold]. rewrite read_selem by (try apply N; try apply E; left; reflexivity). cbn [rbind].
    rewrite IH; [| intros z Z; apply N; right; exact Z | intros z Z; apply E; right; exact Z | cbn in L; lia].
    unfold si_addLayer. cbn [si_l si_s si_dl si_ds si_id si_type si_num]. rewrite <- !app_assoc. reflexivity.
Qed.

Lemma si_read : forall at0 s p, sorted_params p -> text_ok_params p -> si_ok s ->
  si_fromXML (XElem "detector" at0 (si_fixed s ++ all_elems p)) =
  if ((si_type s =? 1) || (si_type s =? 2))%Z%bool then Ok (si_reloaded s, back p) else Throw (EGear "type of SiPlanes").
Proof.
  intros at0 s p S T [L [N1 [N2 [N3 [N4 [N5 N6]]]]]]. unfold si_fromXML.
  rewrite !det_child by (assumption || discriminate).
  rewrite det_params by (assumption || (intros x X; apply si_fixed_in in X; tauto)).
  assert (F1 : FirstChildElement "siplanesID" (XElem "detector" at0 (si_fixed s)) = Some (XElem "siplanesID" (attrs_of [("ID", print_int (si_id s))]) [])%string) by reflexivity.
  assert (F2 : FirstChildElement "siplanesType" (XElem "detector" at0 (si_fixed s)) = Some (XElem "siplanesType" (attrs_of [("type", si_type_text (si_type s))]) [])%string) by reflexivity.
  assert (F3 : FirstChildElement "siplanesNumber" (XElem "detector" at0 (si_fixed s)) = Some (XElem "siplanesNumber" (attrs_of [("number", print_int (si_num s))]) [])%string) by reflexivity.
  assert (F4 : FirstChildElement "layers" (XElem "detector" at0 (si_fixed s)) = Some (XElem "layers" [] (map selem (combine (si_l s) (si_s s))))).
  { unfold si_fixed. destruct (si_type s =? 1)%Z; reflexivity. }
  rewrite F1, F2, F3, F4. unfold int_of, attr_of, iterate_of.
  pose proof (id_pairs_ok (si_id s)) as P1. pose proof (sitype_pairs_ok (si_type s)) as P2. pose proof (number_pairs_ok (si_num s)) as P3.
  steps P1. steps P2.
  assert (I : IterateChildren "layer" (XElem "layers" [] (map selem (combine (si_l s) (si_s s)))) = map selem (combine (si_l s) (si_s s))).
  { unfold IterateChildren. apply filter_all. intros x I. apply in_map_iff in I. destruct I as [a [<- _]]. reflexivity. }
  unfold si_type_text. destruct (Z.eqb_spec (si_type s) 1) as [T1|T1]; [|destruct (Z.eqb_spec (si_type s) 2) as [T2|T2]]; cbn [orb].
  - cbn [String.eqb Ascii.eqb Bool.eqb rbind]. steps P3. change (1 =? 1)%Z with true. cbv iota.
    rewrite (read_dut_elem _ s) ; [|exact N5 | exact N6|].
    + cbn [rbind]. rewrite I, read_layers_si by assumption. cbn [rbind si_l si_s si_dl si_ds si_id si_type si_num new_siplanes app].
      unfold si_reloaded, reloaded_dut. rewrite T1. reflexivity.
    + rewrite det_child by (assumption || discriminate). unfold si_fixed. rewrite T1. reflexivity.
  - cbn [String.eqb Ascii.eqb Bool.eqb rbind]. steps P3. change (2 =? 1)%Z with false. cbv iota. cbn [rbind].
    rewrite I, read_layers_si by assumption. cbn [rbind si_l si_s si_dl si_ds si_id si_type si_num new_siplanes app].
    unfold si_reloaded, reloaded_dut. rewrite T2. reflexivity.
  - reflexivity.
Qed.

Lemma reload_si : forall s p, sorted_params p -> text_ok_params p -> si_ok s ->
  reload si_toXML si_fromXML (s, p) =
  if ((si_type s =? 1) || (si_type s =? 2))%Z%bool then Ok (si_reloaded s, back p) else Throw (EGear "type of SiPlanes").
Proof.
  intros s p S T O. unfold reload. rewrite si_element by (try exact S; apply O). cbn [rbind].
  rewrite via_writable; [|apply det_writable; [reflexivity | apply no_pairs | exact S | exact T | intros x X; apply si_fixed_in in X; tauto] | reflexivity].
  cbn [rbind]. apply si_read; assumption.
Qed.

Lemma planes_back : forall s hp, storable (after hp) -> si_ok s -> (si_type s = 1 \/ si_type s = 2)%Z ->
  exists p', reload si_toXML si_fromXML (s, after hp) = Ok (si_reloaded s, p').
Proof.
  intros s hp SP O T. rewrite reload_si by (try apply after_sorted; try apply storable_text; assumption).
  destruct T as [-> | ->]; eexists; reflexivity.
Qed.
Lemma planes_unknown : forall s hp, storable (after hp) -> si_ok s -> ~ (si_type s = 1 \/ si_type s = 2)%Z ->
  reload si_toXML si_fromXML (s, after hp) = Throw (EGear "type of SiPlanes").
Proof.
  intros s hp SP O T. rewrite reload_si by (try apply after_sorted; try apply storable_text; assumption).
  destruct (Z.eqb_spec (si_type s) 1), (Z.eqb_spec (si_type s) 2); try tauto.
Qed.

Lemma map_id_in : forall {A} (f : A -> A) l, map f l = l <-> forall x, In x l -> f x = x.
Proof. exact @map_id_iff. Qed.
Lemma plate_kept_iff : forall p, reread_plate p = p <-> kept_plate p.
Proof.
  intros p. split.
  - intros E. destruct p as [i x y z a b c sx sy t r]. unfold reread_plate in E. cbn in E. injection E as E1 E2 E3 E4 E5 E6 E7 E8 E9 E10.
    intros []; assumption.
  - intros K. destruct p as [i x y z a b c sx sy t r]. unfold reread_plate. cbn.
    pose proof (K FX) as K1. pose proof (K FY) as K2. pose proof (K FZ) as K3. pose proof (K FRXY) as K4. pose proof (K FRZX) as K5. pose proof (K FRZY) as K6.
    pose proof (K FSX) as K7. pose proof (K FSY) as K8. pose proof (K FT) as K9. pose proof (K FRad) as K10.
    cbn in *. unfold kept in *. unfold reread. congruence.
Qed.
Lemma unrot_iff : forall p, reread_plate (unrotated p) = p <-> kept_plate p /\ plate_is_unrotated p.
Proof.
  intros p. assert (U : plate_is_unrotated p <-> unrotated p = p).
  { destruct p as [i x y z a b c sx sy t r]. unfold plate_is_unrotated, unrotated. cbn. split; [intros [-> [-> ->]]; reflexivity|].
    intros E. injection E as -> -> ->. auto. }
  split.
  - intros E. assert (R : unrotated p = p).
    { apply U. rewrite <- E. unfold plate_is_unrotated, reread_plate, unrotated. cbn. pose proof kept_zero as K. unfold kept in K. unfold reread. auto. }
    split; [|apply U; exact R]. rewrite R in E. apply plate_kept_iff. exact E.
  - intros [K R]. apply U in R. rewrite R. apply plate_kept_iff. exact K.
Qed.
Lemma sens_iff : forall e rx ry, reread_sens e rx ry = e <->
  kept_plate (se_plate e) /\ plate_is_unrotated (se_plate e) /\ (kept (se_PX e) /\ kept (se_PY e) /\ kept (se_Res e)) /\
  (kept (se_R1 e) /\ kept (se_R2 e) /\ kept (se_R3 e) /\ kept (se_R4 e)) /\ rx = se_ResX e /\ ry = se_ResY e.
Proof.
  intros e rx ry. destruct e as [q nx ny px py r x y a b c d]. unfold reread_sens. cbn. split.
  - intros E. injection E as E1 E2 E3 E4 E5 E6 E7 E8 E9 E10. assert (EP : reread_plate (unrotated q) = q) by exact E1.
    apply unrot_iff in EP. destruct EP as [A B]. repeat split; try assumption; apply A || apply B.
  - intros [A [B [[C1 [C2 C3]] [[D1 [D2 [D3 D4]]] [-> ->]]]]]. assert (EP : reread_plate (unrotated q) = q) by (apply unrot_iff; auto).
    rewrite EP. unfold kept, reread in *. congruence.
Qed.

Lemma planes_survive : forall s hp, let o := (s, after hp) in storable (after hp) -> si_ok s ->
  (reload si_toXML si_fromXML o = Ok o <->
   (si_type s = 1 \/ si_type s = 2)%Z /\ (forall l, In l (si_l s) -> kept_plate l) /\
   (forall e, In e (si_s s) -> kept_sens e /\ plate_is_unrotated (se_plate e) /\ se_ResX e = se_Res e /\ se_ResY e = se_Res e) /\
   ((si_type s = 1)%Z -> kept_plate (si_dl s) /\ plate_is_unrotated (si_dl s) /\ kept_sens (si_ds s) /\ plate_is_unrotated (se_plate (si_ds s)) /\
      se_ResX (si_ds s) = 0 /\ se_ResY (si_ds s) = 0) /\
   ((si_type s = 2)%Z -> si_dl s = plate0 /\ si_ds s = sens0) /\ survive (after hp)).
Proof.
  intros s hp o SP O. unfold o. rewrite reload_si by (try apply after_sorted; try apply storable_text; assumption).
  pose proof (back_same_iff (after hp) (after_sorted hp)) as B. fold (survive (after hp)) in B. rewrite <- B. clear B.
  assert (KS : forall e, kept_sens e <-> kept_plate (se_plate e) /\ (kept (se_PX e) /\ kept (se_PY e) /\ kept (se_Res e)) /\
    (kept (se_R1 e) /\ kept (se_R2 e) /\ kept (se_R3 e) /\ kept (se_R4 e)) /\ kept (se_ResX e) /\ kept (se_ResY e)).
  { intros e. split.
    - intros K. split; [intros f; apply (K (SPlate f))|]. 
      repeat split; [apply (K SPX) | apply (K SPY) | apply (K SRes) | apply (K SR1) | apply (K SR2) | apply (K SR3) | apply (K SR4) | apply (K SResX) | apply (K SResY)].
    - intros [K0 [[K1 [K2 K3]] [[K4 [K5 [K6 K7]]] [K8 K9]]]] [f| | | | | | | | | ]; cbn; auto. }
  assert (SE : si_reloaded s = s <-> map reread_plate (si_l s) = si_l s /\
     map (fun e => reread_sens e (reread (se_Res e)) (reread (se_Res e))) (si_s s) = si_s s /\ reloaded_dut s = (si_dl s, si_ds s)).
  { destruct s as [l e dl ds i t n]. unfold si_reloaded. cbn [si_l si_s si_dl si_ds si_id si_type si_num]. split.
    - intros E. injection E as E1 E2 E3 E4. split; [exact E1|]. split; [exact E2|]. rewrite (surjective_pairing (reloaded_dut _)), E3, E4. reflexivity.
    - intros [-> [-> ->]]. reflexivity. }
  assert (SE2 : si_reloaded s = s <-> (forall l, In l (si_l s) -> kept_plate l) /\
    (forall e, In e (si_s s) -> kept_sens e /\ plate_is_unrotated (se_plate e) /\ se_ResX e = se_Res e /\ se_ResY e = se_Res e) /\ reloaded_dut s = (si_dl s, si_ds s)).
  { rewrite SE, !map_id_in. split; intros [A [B C]]; (split; [|split; [|exact C]]).
    - intros l I. apply plate_kept_iff. apply A. exact I.
    - intros e I. specialize (B e I). apply sens_iff in B. destruct B as [B1 [B2 [B3 [B4 [B5 B6]]]]].
      destruct B3 as [B3 [B3' B3'']]. assert (Q : reread (se_Res e) = se_Res e) by exact B3''. rewrite Q in B5, B6.
      split; [|repeat split; congruence || apply B2]. apply KS. rewrite <- B5, <- B6. repeat split; try assumption; apply B4.
    - intros l I. apply plate_kept_iff. apply A. exact I.
    - intros e I. destruct (B e I) as [K [U [R1 R2]]]. apply KS in K. destruct K as [K0 [K1 [K2 [K3 K4]]]].
      apply sens_iff. rewrite R1, R2. assert (Q : reread (se_Res e) = se_Res e) by apply K1. rewrite Q. auto 10. }
  destruct (Z.eqb_spec (si_type s) 1) as [T1|T1]; cbn [orb]; [|destruct (Z.eqb_spec (si_type s) 2) as [T2|T2]].
  - assert (D : reloaded_dut s = (si_dl s, si_ds s) <-> kept_plate (si_dl s) /\ plate_is_unrotated (si_dl s) /\ kept_sens (si_ds s) /\ plate_is_unrotated (se_plate (si_ds s)) /\
      se_ResX (si_ds s) = 0 /\ se_ResY (si_ds s) = 0).
    { unfold reloaded_dut. rewrite T1. cbn [Z.eqb Pos.eqb]. split.
      - intros E. assert (E1 : reread_plate (unrotated (si_dl s)) = si_dl s) by congruence. assert (E2 : reread_sens (si_ds s) 0 0 = si_ds s) by congruence.
        apply unrot_iff in E1. apply sens_iff in E2. destruct E2 as [B1 [B2 [B3 [B4 [B5 B6]]]]].
        split; [apply E1|]. split; [apply E1|]. split; [|auto]. apply KS. rewrite <- B5, <- B6. pose proof kept_zero. auto 10.
      - intros [A1 [A2 [A3 [A4 [A5 A6]]]]]. apply KS in A3. destruct A3 as [K0 [K1 [K2 [K3 K4]]]].
        assert (E1 : reread_plate (unrotated (si_dl s)) = si_dl s) by (apply unrot_iff; auto).
        assert (E2 : reread_sens (si_ds s) 0 0 = si_ds s) by (apply sens_iff; auto 10). rewrite E1, E2. reflexivity. }
    rewrite D in SE2. split.
    + intros E. injection E as E1 E2. apply SE2 in E1. destruct E1 as [A [B C]]. split; [left; exact T1|]. split; [exact A|]. split; [exact B|].
      split; [intros _; exact C|]. split; [intros X; lia | exact E2].
    + intros [_ [A [B [C [_ E]]]]]. rewrite E. do 2 f_equal. apply SE2. auto.
  - assert (D : reloaded_dut s = (si_dl s, si_ds s) <-> si_dl s = plate0 /\ si_ds s = sens0).
    { unfold reloaded_dut. rewrite T2. cbn [Z.eqb Pos.eqb]. split; [intros E; split; congruence | intros [-> ->]; reflexivity]. }
    rewrite D in SE2. split.
    + intros E. injection E as E1 E2. apply SE2 in E1. destruct E1 as [A [B C]]. split; [right; exact T2|]. split; [exact A|]. split; [exact B|].
      split; [intros X; lia|]. split; [intros _; exact C | exact E2].
    + intros [_ [A [B [_ [C E]]]]]. rewrite E. do 2 f_equal. apply SE2. auto.
  - split; [discriminate|]. intros [[X|X] _]; contradiction.
Qed.

Lemma planes_rotation_lost : forall s hp e, storable (after hp) -> si_ok s -> In e (si_s s) -> ~ plate_is_unrotated (se_plate e) ->
  reload si_toXML si_fromXML (s, after hp) <> Ok (s, after hp).
Proof. intros s hp e SP O I R E. apply planes_survive in E; [|exact SP | exact O]. destruct E as [_ [_ [K _]]]. apply K in I. tauto. Qed.
Lemma planes_resolution_lost : forall s hp e, storable (after hp) -> si_ok s -> In e (si_s s) -> se_ResX e <> se_ResY e ->
  reload si_toXML si_fromXML (s, after hp) <> Ok (s, after hp).
Proof.
  intros s hp e SP O I R E. apply planes_survive in E; [|exact SP | exact O]. destruct E as [_ [_ [K _]]]. apply K in I.
  apply R. destruct I as [_ [_ [-> ->]]]. reflexivity.
Qed.
Lemma planes_dut_lost : forall s hp, storable (after hp) -> si_ok s -> (si_type s = 2)%Z -> si_ds s <> sens0 ->
  exists s' p', reload si_toXML si_fromXML (s, after hp) = Ok (s', p') /\ si_ds s' = sens0 /\ si_dl s' = plate0.
Proof.
  intros s hp SP O T D. destruct (planes_back s hp SP O (or_intror T)) as [p' E]. exists (si_reloaded s), p'. split; [exact E|].
  unfold si_reloaded, reloaded_dut. rewrite T. split; reflexivity.
Qed.

(** ** TrackerPlanes *)
Definition plate_tail (m : material) : list (string * string) :=
  [("ID", print_int (pl_ID (ma_plate m))); ("info", ma_info m)]%string ++ plate_attrs (ma_plate m) ++ [("radLength", print_double (pl_Rad (ma_plate m)))]%string.
Lemma ladder_pairs_ok : forall m, mat_ok m -> pairs_ok (plate_tail m).
Proof. intros m [_ C]. unfold clean_text in C. fold (clean (ma_info m)) in C. unfold plate_tail. pairs. Qed.
Definition sensor_tail (e : sensor) : list (string * string) :=
  [("ID", print_int (pl_ID (sr_plate e))); ("info", sr_info e)]%string ++ plate_attrs (sr_plate e) ++
    [("npixelX", print_int (sr_NX e)); ("npixelY", print_int (sr_NY e)); ("pitchX", print_double (sr_PX e)); ("pitchY", print_double (sr_PY e));
     ("resolutionX", print_double (sr_ResX e)); ("resolutionY", print_double (sr_ResY e)); ("radLength", print_double (pl_Rad (sr_plate e)))]%string.
Lemma sensor_pairs_ok : forall e, sensor_ok e -> pairs_ok (sensor_tail e).
Proof. intros e [_ [C _]]. unfold clean_text in C. fold (clean (sr_info e)) in C. unfold sensor_tail. pairs. Qed.

Lemma parts_writable : forall l x, tl_ok l -> In x (map ladder_elem (tl_mat l) ++ map sensor_elem (tl_sen l)) -> writable x /\ is_elem x = true.
Proof.
  intros l x [_ [_ [M E]]] I. apply in_app_or in I. destruct I as [I|I]; apply in_map_iff in I; destruct I as [y [<- Y]]; (split; [|reflexivity]).
  - apply (leaf_writable "ladder" (plate_tail y)); [reflexivity | apply ladder_pairs_ok; apply M; exact Y].
  - apply (leaf_writable "sensitive" (sensor_tail y)); [reflexivity | apply sensor_pairs_ok; apply E; exact Y].
Qed.

Definition tp_fixed (t : tplanes) : list xnode :=
  [XElem "LayoutID" (attrs_of [("ID", print_int (tp_id t))]) []; XElem "LayoutNumberOfLayers" (attrs_of [("number", print_int (tp_num t))]) []]%string ++
  map tp_layer_elem (tp_layers t).
Lemma tp_element : forall t p, sorted_params p -> tp_toXML (t, p) = Ok (XElem "detector" (attrs_of []) (tp_fixed t ++ all_elems p)).
Proof. intros t p S. unfold tp_toXML. rewrite to_xml_elems by exact S. cbn [rbind]. unfold tp_fixed. rewrite <- app_assoc. reflexivity. Qed.
Lemma tp_fixed_in : forall t x, tp_ok t -> In x (tp_fixed t) -> (writable x /\ is_elem x = true) /\ Value x <> "parameter"%string.
Proof.
  intros t x [_ [_ O]] I. unfold tp_fixed in I. apply in_app_or in I. destruct I as [[<-|[<-|[]]]|I].
  - split; [|discriminate]. split; [apply leaf_writable; [reflexivity | apply id_pairs_ok] | reflexivity].
  - split; [|discriminate]. split; [apply leaf_writable; [reflexivity | apply number_pairs_ok] | reflexivity].
  - apply in_map_iff in I. destruct I as [l [<- L]]. split; [|discriminate]. split; [|reflexivity].
    apply (node_writable "layer" []); [reflexivity | apply no_pairs|]. intros y Y. apply (parts_writable l); [apply O; exact L | exact Y].
Qed.

Lemma tp_read_saved : forall at0 t p, sorted_params p -> text_ok_params p -> tp_ok t ->
  tp_fromXML (XElem "detector" at0 (tp_fixed t ++ all_elems p)) = UB.
Proof.
  intros at0 t p S T [N1 [N2 O]]. unfold tp_fromXML. rewrite !det_child by (assumption || discriminate).
  change (FirstChildElement "LayoutID" _) with (Some (XElem "LayoutID" (attrs_of [("ID", print_int (tp_id t))]) []))%string.
  change (FirstChildElement "LayoutNumberOfLayers" _) with (Some (XElem "LayoutNumberOfLayers" (attrs_of [("number", print_int (tp_num t))]) []))%string.
  assert (F : FirstChildElement "layers" (XElem "detector" at0 (tp_fixed t)) = None).
  { unfold FirstChildElement. cbn [children]. unfold tp_fixed. rewrite find_app. cbn [find Value]. change (String.eqb "LayoutID" "layers") with false.
    change (String.eqb "LayoutNumberOfLayers" "layers") with false. cbn [andb]. apply find_none_all. intros x I. apply in_map_iff in I. destruct I as [l [<- _]]. reflexivity. }
  rewrite F. unfold int_of, attr_of. pose proof (id_pairs_ok (tp_id t)) as P1. pose proof (number_pairs_ok (tp_num t)) as P2. steps P1. steps P2. reflexivity.
Qed.

Lemma tracker_planes_crash : forall t hp, storable (after hp) -> tp_ok t -> reload tp_toXML tp_fromXML (t, after hp) = UB.
Proof.
  intros t hp SP O. pose proof (after_sorted hp) as S. pose proof (storable_text _ SP) as T. unfold reload. rewrite tp_element by exact S. cbn [rbind].
  rewrite via_writable; [|apply det_writable; [reflexivity | apply no_pairs | exact S | exact T | intros x X; apply tp_fixed_in in X; tauto] | reflexivity].
  cbn [rbind]. apply tp_read_saved; assumption.
Qed.

(** the description it can read *)
Lemma layer_pairs_ok : forall l, tl_ok l -> pairs_ok [("ID", print_int (tl_ID l)); ("info", tl_info l)]%string.
Proof. intros l [_ [C _]]. unfold clean_text in C. fold (clean (tl_info l)) in C. pairs. Qed.

Lemma read_plate_of : forall n ch l p info, pairs_ok l -> clean info -> is_int (pl_ID p) ->
  assoc "ID" l = Some (print_int (pl_ID p)) -> assoc "info" l = Some info -> (forall k v, In (k, v) (plate_attrs p) -> assoc k l = Some v) ->
  assoc "radLength" l = Some (print_double (pl_Rad p)) ->
  read_plate (XElem n (attrs_of l) ch) = Ok (reread_plate p, info).
Proof.
  intros n ch l p info P C N E1 E2 E3 E4. unfold read_plate. cbv zeta. unfold get_int. rewrite lookup by exact P. rewrite E1. cbn [rbind].
  rewrite int_kept by exact N. cbn [rbind]. rewrite !lookup_opt by exact P. rewrite E2, E4.
  rewrite (E3 "positionX" (print_double (pl_X p)))%string by (cbn; tauto).
  rewrite (E3 "positionY" (print_double (pl_Y p)))%string by (cbn; tauto).
  rewrite (E3 "positionZ" (print_double (pl_Z p)))%string by (cbn; tauto).
  rewrite (E3 "rotationXY" (print_double (pl_RXY p)))%string by (cbn; tauto).
  rewrite (E3 "rotationZX" (print_double (pl_RZX p)))%string by (cbn; tauto).
  rewrite (E3 "rotationZY" (print_double (pl_RZY p)))%string by (cbn; tauto).
  rewrite (E3 "sizeX" (print_double (pl_SX p)))%string by (cbn; tauto).
  rewrite (E3 "sizeY" (print_double (pl_SY p)))%string by (cbn; tauto).
  rewrite (E3 "thickness" (print_double (pl_T p)))%string by (cbn; tauto).
  rewrite clean_cstr by exact C. reflexivity.
Qed.

Lemma read_ladder_elem : forall l m, mat_ok m -> read_ladder l (ladder_elem m) = Ok (addMaterialLayer l (reread_material m)).
Proof.
  intros l m O. pose proof (ladder_pairs_ok m O) as P. destruct O as [N C]. unfold read_ladder.
  change (ladder_elem m) with (XElem "ladder" (attrs_of (plate_tail m)) []).
  rewrite (read_plate_of "ladder" [] (plate_tail m) (ma_plate m) (ma_info m)); [reflexivity | exact P | exact C | exact N | reflexivity | reflexivity | | reflexivity].
  intros k v I. cbn in I. repeat (destruct I as [E|I]; [injection E as <- <-; reflexivity|]). destruct I.
Qed.
Lemma read_sensor_elem : forall l e, sensor_ok e -> read_sensor l (sensor_elem e) = Ok (addSensitiveLayer l (reread_sensor e)).
Proof.
  intros l e O. pose proof (sensor_pairs_ok e O) as P. destruct O as [N [C [N1 N2]]]. unfold read_sensor, sensor_elem. cbv zeta.
  fold (sensor_tail e). rewrite (read_plate_of "sensitive" [] (sensor_tail e) (sr_plate e) (sr_info e)); [| exact P | exact C | exact N | reflexivity | reflexivity | | reflexivity].
  - cbn [rbind]. rewrite !lookup_opt by exact P. change (assoc "npixelX" (sensor_tail e)) with (Some (print_int (sr_NX e))).
    change (assoc "npixelY" (sensor_tail e)) with (Some (print_int (sr_NY e))). change (assoc "pitchX" (sensor_tail e)) with (Some (print_double (sr_PX e))).
    change (assoc "pitchY" (sensor_tail e)) with (Some (print_double (sr_PY e))). change (assoc "resolutionX" (sensor_tail e)) with (Some (print_double (sr_ResX e))).
    change (assoc "resolutionY" (sensor_tail e)) with (Some (print_double (sr_ResY e))). cbv iota. rewrite !int_kept by assumption. reflexivity.
  - intros k v I. cbn in I. repeat (destruct I as [E|I]; [injection E as <- <-; reflexivity|]). destruct I.
Qed.

Lemma add_mats : forall ms l, fold_left (fun l m => addMaterialLayer l (reread_material m)) ms l =
  mkTL (tl_ID l) (tl_info l) (tl_mat l ++ map reread_material ms) (tl_sen l).
Proof.
  induction ms as [|m ms IH]; intros l; cbn; [rewrite app_nil_r; destruct l; reflexivity|]. rewrite IH. cbn. rewrite <- app_assoc. reflexivity.
Qed.
Lemma add_sens : forall es l, fold_left (fun l e => addSensitiveLayer l (reread_sensor e)) es l =
  mkTL (tl_ID l) (tl_info l) (tl_mat l) (tl_sen l ++ map reread_sensor es).
Proof.
  induction es as [|m ms IH]; intros l; cbn; [rewrite app_nil_r; destruct l; reflexivity|]. rewrite IH. cbn. rewrite <- app_assoc. reflexivity.
Qed.

Lemma read_tplayer_elem : forall t l, tl_ok l -> read_tplayer t (tp_layer_described l) = Ok (tp_addLayer t (reread_tplayer l)).
Proof.
  intros t l O. pose proof (layer_pairs_ok l O) as P. pose proof O as [N [C [M E]]]. unfold read_tplayer, tp_layer_described, get_int.
  eapply step_int; [exact P | reflexivity | exact N | cbv beta zeta]. rewrite lookup_opt by exact P. cbn [assoc String.eqb Ascii.eqb Bool.eqb].
  rewrite clean_cstr by exact C. unfold IterateChildren. cbn [children].
  rewrite !filter_app, (filter_all _ (map ladder_elem (tl_mat l))), (filter_none _ (map sensor_elem (tl_sen l))).
  2: { intros x I. apply in_map_iff in I. destruct I as [y [<- _]]. reflexivity. }
  2: { intros x I. apply in_map_iff in I. destruct I as [y [<- _]]. reflexivity. }
  rewrite app_nil_r, (rfold_each _ _ (fun l m => addMaterialLayer l (reread_material m))) by (intros s x X; apply read_ladder_elem; apply M; exact X).
  cbn [rbind]. rewrite (filter_none _ (map ladder_elem (tl_mat l))), (filter_all _ (map sensor_elem (tl_sen l))).
  2: { intros x I. apply in_map_iff in I. destruct I as [y [<- _]]. reflexivity. }
  2: { intros x I. apply in_map_iff in I. destruct I as [y [<- _]]. reflexivity. }
  cbn [app]. rewrite (rfold_each _ _ (fun l e => addSensitiveLayer l (reread_sensor e))) by (intros s x X; apply read_sensor_elem; apply E; exact X).
  cbn [rbind]. rewrite add_mats, add_sens. reflexivity.
Qed.

Lemma add_layers : forall ls t, fold_left (fun t l => tp_addLayer t (reread_tplayer l)) ls t =
  mkTP (tp_layers t ++ map reread_tplayer ls) (tp_lID t) (tp_linfo t) (tp_id t) (tp_type t) (tp_num t).
Proof.
  induction ls as [|m ms IH]; intros t; cbn; [rewrite app_nil_r; destruct t; reflexivity|]. rewrite IH. cbn. rewrite <- app_assoc. reflexivity.
Qed.

Lemma planes_read : forall t, tp_ok t -> rbind (via_file (tp_described t)) tp_fromXML =
  Ok (mkTP (map reread_tplayer (tp_layers t)) 0 "" (tp_id t) 0 (tp_num t), params_empty).
Proof.
  intros t [N1 [N2 O]]. assert (W : writable (tp_described t)).
  { apply (node_writable "detector" []); [reflexivity | apply no_pairs|]. intros x [<-|[<-|[<-|[]]]].
    - split; [apply leaf_writable; [reflexivity | apply id_pairs_ok] | reflexivity].
    - split; [apply leaf_writable; [reflexivity | apply number_pairs_ok] | reflexivity].
    - split; [|reflexivity]. apply (node_writable "layers" []); [reflexivity | apply no_pairs|].
      intros x I. apply in_map_iff in I. destruct I as [l [<- L]]. split; [|reflexivity].
      apply node_writable; [reflexivity | apply layer_pairs_ok; apply O; exact L|]. intros y Y. apply (parts_writable l); [apply O; exact L | exact Y]. }
  rewrite via_writable by (exact W || reflexivity). cbn [rbind]. unfold tp_fromXML, tp_described.
  change (FirstChildElement "LayoutID" _) with (Some (XElem "LayoutID" (attrs_of [("ID", print_int (tp_id t))]) []))%string.
  change (FirstChildElement "LayoutNumberOfLayers" _) with (Some (XElem "LayoutNumberOfLayers" (attrs_of [("number", print_int (tp_num t))]) []))%string.
  change (FirstChildElement "layers" _) with (Some (XElem "layers" [] (map tp_layer_described (tp_layers t)))).
  unfold int_of, attr_of. pose proof (id_pairs_ok (tp_id t)) as P1. pose proof (number_pairs_ok (tp_num t)) as P2. steps P1. steps P2.
  unfold iterate_of. cbn [rbind].
  assert (I : IterateChildren "layer" (XElem "layers" [] (map tp_layer_described (tp_layers t))) = map tp_layer_described (tp_layers t)).
  { unfold IterateChildren. apply filter_all. intros x I. apply in_map_iff in I. destruct I as [a [<- _]]. reflexivity. }
  rewrite I, (rfold_each _ _ (fun t l => tp_addLayer t (reread_tplayer l))) by (intros s x X; apply read_tplayer_elem; apply O; exact X).
  cbn [rbind]. rewrite add_layers. reflexivity.
Qed.
