(** Proofs about trackers in files (C37). *)
From Coq Require Import ZArith List String Ascii Bool Reals Lia Lra.
From Verif Require Import Base BaseProofs RBase VecModel XmlModel XmlSpec XmlProofs NumModel NumSpec NumProofs HxModel HxSpec HxProofs
  ParamsModel ParamsSpec ParamsProofs ParXmlModel ParXmlSpec ParXmlProofs ZpModel ZpSpec ZpProofs3 ZpProofs6 FtdModel FtdSpec FtdProofs
  TrkModel TrkXmlModel TrkXmlSpec.
Import ListNotations.
Open Scope list_scope.
Open Scope R_scope.

Ltac pairs := split; [reflexivity | split; [reflexivity|]]; intros v I; cbn in I;
  repeat (destruct I as [<-|I]; [first [apply print_int_clean | apply print_double_clean | assumption | apply plain_clean; reflexivity]|]); destruct I.

(** ** Looking up attributes by computation *)
Fixpoint assoc (k : string) (l : list (string * string)) : option string :=
  match l with [] => None | (n, v) :: t => if String.eqb n k then Some v else assoc k t end.
Lemma assoc_find : forall k l, find_attr k l = assoc k l.
Proof. intros k l. induction l as [|[n v] l IH]; [reflexivity|]. cbn. destruct (String.eqb n k); [reflexivity | exact IH]. Qed.
Lemma assoc_in : forall k l v, assoc k l = Some v -> In (k, v) l.
Proof.
  intros k l. induction l as [|[n w] l IH]; intros v H; [discriminate|]. cbn in H. destruct (String.eqb_spec n k) as [->|].
  - injection H as ->. left. reflexivity.
  - right. apply IH. exact H.
Qed.
Lemma lookup : forall n l ch k, pairs_ok l ->
  getXMLAttribute (XElem n (attrs_of l) ch) k = match assoc k l with Some v => Ok v | None => Throw (EParse k) end.
Proof.
  intros n l ch k P. destruct (assoc k l) as [v|] eqn:A.
  - apply get_attr; [exact P | apply assoc_in; exact A].
  - rewrite attrs_of_ok by exact P. unfold getXMLAttribute, Attribute. rewrite assoc_find, A. reflexivity.
Qed.
Lemma lookup_opt : forall n l ch k d, pairs_ok l ->
  getOptionalXMLAttribute (XElem n (attrs_of l) ch) k d = match assoc k l with Some v => v | None => d end.
Proof. intros n l ch k d P. unfold getOptionalXMLAttribute. rewrite lookup by exact P. destruct (assoc k l); reflexivity. Qed.

Lemma leaf_writable : forall n l, xml_nameb n = true -> pairs_ok l -> writable (XElem n (attrs_of l) []).
Proof. intros n l N P. apply elem_writable; [exact N | exact P | intros x [] | exact I]. Qed.
Lemma no_pairs : pairs_ok [].
Proof. split; [reflexivity|]. split; [reflexivity|]. intros v []. Qed.
(** an element whose children are elements *)
Lemma node_writable : forall n l ch, xml_nameb n = true -> pairs_ok l -> (forall x, In x ch -> writable x /\ is_elem x = true) ->
  writable (XElem n (attrs_of l) ch).
Proof. intros n l ch N P H. apply elem_writable; [exact N | exact P | intros; apply H; assumption | apply elements_no_text; intros; apply H; assumption]. Qed.

(** ** A detector element: some elements followed by the parameters *)
Lemma det_writable : forall n l fixed p, xml_nameb n = true -> pairs_ok l -> sorted_params p -> text_ok_params p ->
  (forall x, In x fixed -> writable x /\ is_elem x = true) -> writable (XElem n (attrs_of l) (fixed ++ all_elems p)).
Proof.
  intros n l fixed p N P S T H. apply node_writable; [exact N | exact P|]. intros x I. apply in_app_or in I. destruct I as [I|I].
  - apply H. exact I.
  - destruct (all_elems_in p x S T I) as [W [E _]]. split; assumption.
Qed.
Lemma find_app : forall {A} (f : A -> bool) l m, find f (l ++ m) = match find f l with Some x => Some x | None => find f m end.
Proof. intros A f l m. induction l as [|x l IH]; [reflexivity|]. cbn. destruct (f x); [reflexivity | exact IH]. Qed.
Lemma find_none_all : forall {A} (f : A -> bool) l, (forall x, In x l -> f x = false) -> find f l = None.
Proof. intros A f l H. induction l as [|x l IH]; [reflexivity|]. cbn. rewrite H by (left; reflexivity). apply IH. intros y Y. apply H. right. exact Y. Qed.
Lemma det_child : forall n a fixed p k, sorted_params p -> text_ok_params p -> k <> "parameter"%string ->
  FirstChildElement k (XElem n a (fixed ++ all_elems p)) = FirstChildElement k (XElem n a fixed).
Proof.
  intros n a fixed p k S T K. unfold FirstChildElement. cbn [children]. rewrite find_app.
  destruct (find _ fixed); [reflexivity|]. apply find_none_all. intros x I. destruct (all_elems_in p x S T I) as [_ [_ V]].
  rewrite V. destruct (String.eqb_spec "parameter" k); [congruence | reflexivity].
Qed.
Lemma det_iterate : forall n a fixed p k, sorted_params p -> text_ok_params p -> k <> "parameter"%string ->
  IterateChildren k (XElem n a (fixed ++ all_elems p)) = IterateChildren k (XElem n a fixed).
Proof.
  intros n a fixed p k S T K. unfold IterateChildren. cbn [children]. rewrite filter_app, (filter_none _ (all_elems p)), app_nil_r; [reflexivity|].
  intros x I. destruct (all_elems_in p x S T I) as [_ [_ V]]. rewrite V. destruct (String.eqb_spec "parameter" k); [congruence | reflexivity].
Qed.
Lemma det_params : forall n a fixed p, sorted_params p -> text_ok_params p ->
  (forall x, In x fixed -> Value x <> "parameter"%string) ->
  params_from_xml (XElem n a (fixed ++ all_elems p)) params_empty = Ok (back p).
Proof.
  intros n a fixed p S T H. unfold params_from_xml, IterateChildren. cbn [children].
  rewrite filter_app, (filter_none _ fixed), (filter_all _ (all_elems p)).
  - apply read_elems; assumption.
  - intros x I. destruct (all_elems_in p x S T I) as [_ [_ V]]. rewrite V. reflexivity.
  - intros x I. destruct (String.eqb_spec (Value x) "parameter"); [|reflexivity]. destruct (H x I). assumption.
Qed.
Lemma storable_text : forall p, storable p -> text_ok_params p.
Proof. intros p H t k v G. destruct (H t k v G) as [A [B C]]. split; [split; assumption | exact C]. Qed.

Lemma rfold_each : forall {A B S} (f : S -> B -> result S) (g : A -> B) (h : S -> A -> S) l s,
  (forall s x, In x l -> f s (g x) = Ok (h s x)) -> rfold f (map g l) s = Ok (fold_left h l s).
Proof.
  intros A B S f g h l. induction l as [|x l IH]; intros s H; [reflexivity|]. cbn. rewrite H by (left; reflexivity). cbn [rbind].
  apply IH. intros t y Y. apply H. right. exact Y.
Qed.
Lemma rall_indices : forall {A B} (f : Z -> result B) (g : A -> B) (l : list A),
  (forall i x, nth_error l i = Some x -> f (Z.of_nat i) = Ok (g x)) -> rall f (indices (Z.of_nat (List.length l))) = Ok (map g l).
Proof.
  intros A B f g l H. unfold indices. rewrite Nat2Z.id.
  assert (G : forall l k, (forall i x, nth_error l i = Some x -> f (Z.of_nat (k + i)) = Ok (g x)) ->
    rall f (map Z.of_nat (seq k (List.length l))) = Ok (map g l)).
  { clear l H. induction l as [|x l IH]; intros k H; [reflexivity|]. cbn [List.length seq map rall].
    rewrite <- (Nat.add_0_r k) at 1. rewrite (H 0%nat x eq_refl). cbn [rbind].
    rewrite (IH (S k)); [reflexivity|]. intros i y Y. replace (S k + i)%nat with (k + S i)%nat by lia. apply H. exact Y. }
  apply (G l 0%nat). exact H.
Qed.

Lemma reread_kept : forall x, kept x <-> reread x = x.
Proof. intros x. unfold kept, reread. tauto. Qed.
Lemma at_nat : forall {A} (l : list A) i x, nth_error l i = Some x -> at_ l (Z.of_nat i) = Ok x.
Proof. intros A l i x H. unfold at_, nthZ. destruct (Z.ltb_spec (Z.of_nat i) 0); [lia|]. rewrite Nat2Z.id, H. reflexivity. Qed.

Ltac look P := rewrite ?(lookup _ _ _ _ P); cbn [assoc String.eqb Ascii.eqb Bool.eqb rmap rbind].

(** one read at a time *)
Lemma step_double : forall {A} n l ch k x (f : R -> result A) r, pairs_ok l -> assoc k l = Some (print_double x) -> f (reread x) = r ->
  rbind (rmap atof (getXMLAttribute (XElem n (attrs_of l) ch) k)) f = r.
Proof. intros A n l ch k x f r P E H. rewrite lookup, E by exact P. exact H. Qed.
Lemma step_int : forall {A} n l ch k z (f : Z -> result A) r, pairs_ok l -> assoc k l = Some (print_int z) -> is_int z -> f z = r ->
  rbind (rbind (getXMLAttribute (XElem n (attrs_of l) ch) k) atoi) f = r.
Proof. intros A n l ch k z f r P E I H. rewrite lookup, E by exact P. cbn [rbind]. rewrite int_kept by exact I. exact H. Qed.
Lemma step_text : forall {A} n l ch k v (f : string -> result A) r, pairs_ok l -> assoc k l = Some v -> f v = r ->
  rbind (getXMLAttribute (XElem n (attrs_of l) ch) k) f = r.
Proof. intros A n l ch k v f r P E H. rewrite lookup, E by exact P. exact H. Qed.
Lemma step_opt : forall {A} n l ch k d x (f : R -> result A) r, pairs_ok l -> assoc k l = Some (print_double x) -> f (reread x) = r ->
  rbind (rmap atof (Ok (getOptionalXMLAttribute (XElem n (attrs_of l) ch) k d))) f = r.
Proof. intros A n l ch k d x f r P E H. rewrite lookup_opt, E by exact P. exact H. Qed.
Lemma step_opt_none : forall {A} n l ch k d (f : R -> result A) r, pairs_ok l -> assoc k l = None -> f (atof d) = r ->
  rbind (rmap atof (Ok (getOptionalXMLAttribute (XElem n (attrs_of l) ch) k d))) f = r.
Proof. intros A n l ch k d f r P E H. rewrite lookup_opt, E by exact P. exact H. Qed.
Ltac one_step P := match goal with
  | |- rbind (rmap atof (getXMLAttribute _ _)) _ = _ => eapply step_double; [exact P | reflexivity | cbv beta]
  | |- rbind (rbind (getXMLAttribute _ _) atoi) _ = _ => eapply step_int; [exact P | reflexivity | try assumption | cbv beta]
  | |- rbind (getXMLAttribute _ _) _ = _ => eapply step_text; [exact P | reflexivity | cbv beta]
  | |- rbind (rmap atof (Ok (getOptionalXMLAttribute _ _ _))) _ = _ =>
      first [eapply step_opt; [exact P | reflexivity | cbv beta] | eapply step_opt_none; [exact P | reflexivity | cbv beta]]
  end.
Ltac steps P := repeat one_step P.

(** ** Ladders *)
Definition zpart_pairs (q : zpart) : list (string * string) :=
  [("distance", print_double (q_d q)); ("thickness", print_double (q_t q)); ("width", print_double (q_w q));
   ("length", print_double (q_len q)); ("offset", print_double (q_off q)); ("radLength", print_double (q_rad q))]%string.
Lemma zpart_pairs_ok : forall q, pairs_ok (zpart_pairs q).
Proof. intros q. pairs. Qed.
Definition zlayer_pairs (a : zargs) : list (string * string) := [("nLadders", print_int (za_n a)); ("phi0", print_double (za_phi0 a))]%string.
Lemma zlayer_pairs_ok : forall a, pairs_ok (zlayer_pairs a).
Proof. intros a. pairs. Qed.
Definition zelem (a : zargs) : xnode :=
  XElem "layer" (attrs_of (zlayer_pairs a))
    [XElem "ladder" (attrs_of (zpart_pairs (za_lad a))) []; XElem "sensitive" (attrs_of (zpart_pairs (za_sen a))) []].

Lemma zelem_writable : forall a, writable (zelem a) /\ is_elem (zelem a) = true.
Proof.
  intros a. split; [|reflexivity]. apply node_writable; [reflexivity | apply zlayer_pairs_ok|].
  intros x [<-|[<-|[]]]; (split; [apply leaf_writable; [reflexivity | apply zpart_pairs_ok] | reflexivity]).
Qed.

Lemma args_nat : forall h i a, nth_error h i = Some a -> layer_args h (Z.of_nat i) = Some a.
Proof. intros h i a H. unfold layer_args. destruct (Z.ltb_spec (Z.of_nat i) 0); [lia|]. rewrite Nat2Z.id. exact H. Qed.

Lemma zp_elem_at : forall type rIn rOut half gap rad h i a, nth_error h i = Some a ->
  zp_layer_elem (zp_made type rIn rOut half gap rad h) (Z.of_nat i) = Ok (zelem a).
Proof.
  intros type rIn rOut half gap rad h i a H. apply args_nat in H.
  unfold zp_layer_elem, zp_getNLadders, zp_getPhi0, zp_getLadderRadLength, zp_getLadderDistance, zp_getLadderThickness, zp_getLadderOffset, zp_getLadderWidth,
    zp_getLadderLength, zp_getSensitiveRadLength, zp_getSensitiveDistance, zp_getSensitiveThickness, zp_getSensitiveOffset, zp_getSensitiveWidth,
    zp_getSensitiveLength, of_ladder, of_sens. rewrite ladder_at, sens_at, H. cbn [rmap rbind layer_of zl_n zl_phi zl_d zl_off zl_t zl_len zl_w zl_rad].
  replace (PI / 2 - (PI / 2 - za_phi0 a)) with (za_phi0 a) by ring. reflexivity.
Qed.

Definition zp_fixed (type : Z) (rIn rOut half gap rad : R) (h : list zargs) : list xnode :=
  [XElem "type" (attrs_of [("technology", technology type)]) [];
   XElem "shell" (attrs_of [("halfLength", print_double half); ("gap", print_double gap); ("innerRadius", print_double rIn);
                            ("outerRadius", print_double rOut); ("radLength", print_double rad)]) [];
   XElem "layers" [] (map zelem h)]%string.
Lemma zp_made_fields : forall type rIn rOut half gap rad h, let z := zp_made type rIn rOut half gap rad h in
  z_type z = type /\ z_rIn z = rIn /\ z_rOut z = rOut /\ z_half z = half /\ z_gap z = gap /\ z_rad z = rad.
Proof.
  intros type rIn rOut half gap rad h z. unfold z, zp_made.
  assert (G : forall h p, z_type (fold_left zp_addLayer h p) = z_type p /\ z_rIn (fold_left zp_addLayer h p) = z_rIn p /\
    z_rOut (fold_left zp_addLayer h p) = z_rOut p /\ z_half (fold_left zp_addLayer h p) = z_half p /\
    z_gap (fold_left zp_addLayer h p) = z_gap p /\ z_rad (fold_left zp_addLayer h p) = z_rad p).
  { clear. induction h as [|a h IH]; intros p; [cbn; auto 10|]. cbn. destruct (IH (zp_addLayer p a)) as [A [B [C [D [E F]]]]].
    rewrite A, B, C, D, E, F. cbn. auto 10. }
  apply (G h (new_zplanar type rIn rOut half gap rad)).
Qed.

Lemma zp_element : forall type rIn rOut half gap rad h p, sorted_params p ->
  zp_toXML (zp_made type rIn rOut half gap rad h, p) = Ok (XElem "detector" (attrs_of []) (zp_fixed type rIn rOut half gap rad h ++ all_elems p)).
Proof.
  intros type rIn rOut half gap rad h p S. unfold zp_toXML.
  pose proof (zp_values type rIn rOut half gap rad h 0) as [N _]. cbv zeta in N. rewrite N.
  rewrite (rall_indices _ zelem h) by (intros i x H; apply zp_elem_at; exact H).
  cbn [rbind]. rewrite to_xml_elems by exact S. cbn [rbind].
  destruct (zp_made_fields type rIn rOut half gap rad h) as [A [B [C [D [E F]]]]]. rewrite A, B, C, D, E, F. reflexivity.
Qed.

Lemma technology_clean : forall type, clean (technology type).
Proof. intros type. unfold technology. repeat match goal with |- context[if ?b then _ else _] => destruct b end; apply plain_clean; reflexivity. Qed.
Lemma type_pairs_ok : forall type, pairs_ok [("technology", technology type)]%string.
Proof. intros type. pose proof (technology_clean type). pairs. Qed.
Lemma shell_pairs_ok : forall rIn rOut half gap rad, pairs_ok
  [("halfLength", print_double half); ("gap", print_double gap); ("innerRadius", print_double rIn);
   ("outerRadius", print_double rOut); ("radLength", print_double rad)]%string.
Proof. intros. pairs. Qed.

Lemma zp_fixed_writable : forall type rIn rOut half gap rad h x, In x (zp_fixed type rIn rOut half gap rad h) -> writable x /\ is_elem x = true.
Proof.
  intros type rIn rOut half gap rad h x [<-|[<-|[<-|[]]]].
  - split; [apply leaf_writable; [reflexivity | apply type_pairs_ok] | reflexivity].
  - split; [apply leaf_writable; [reflexivity | apply shell_pairs_ok] | reflexivity].
  - split; [|reflexivity]. apply (node_writable "layers" []); [reflexivity | apply no_pairs|].
    intros x I. apply in_map_iff in I. destruct I as [a [<- _]]. apply zelem_writable.
Qed.

Lemma read_zpart_elem : forall n q, read_zpart (Some (XElem n (attrs_of (zpart_pairs q)) [])) = Ok (reread_part q).
Proof. intros n q. unfold read_zpart, double_of, attr_of. pose proof (zpart_pairs_ok q) as P. unfold zpart_pairs in *. look P. reflexivity. Qed.

Lemma read_zelem : forall p a, is_int (za_n a) -> read_zlayer p (zelem a) = Ok (zp_addLayer p (reread_ladders a)).
Proof.
  intros p a N. unfold read_zlayer, zelem, get_int, get_double. pose proof (zlayer_pairs_ok a) as P. unfold zlayer_pairs in *.
  look P. rewrite int_kept by exact N. cbn [rbind].
  change (FirstChildElement "ladder" _) with (Some (XElem "ladder" (attrs_of (zpart_pairs (za_lad a))) [])).
  change (FirstChildElement "sensitive" _) with (Some (XElem "sensitive" (attrs_of (zpart_pairs (za_sen a))) [])).
  rewrite !read_zpart_elem. reflexivity.
Qed.

Lemma fold_map : forall {A B S} (f : S -> B -> S) (g : A -> B) l s, fold_left f (map g l) s = fold_left (fun s x => f s (g x)) l s.
Proof. intros A B S f g l. induction l as [|x l IH]; intros s; [reflexivity|]. cbn. apply IH. Qed.

(** what reading gives, with any attributes of the element *)
Lemma zp_read : forall at0 type rIn rOut half gap rad h p, sorted_params p -> text_ok_params p ->
  (forall a, In a h -> is_int (za_n a)) ->
  zp_fromXML (XElem "detector" at0 (zp_fixed type rIn rOut half gap rad h ++ all_elems p)) =
  if ((1 <=? type) && (type <=? 3))%Z%bool
  then Ok (zp_made type (reread rIn) (reread rOut) (reread half) (reread gap) (reread rad) (map reread_ladders h), back p)
  else Throw (EGear "Unknown").
Proof.
  intros at0 type rIn rOut half gap rad h p S T N. unfold zp_fromXML.
  rewrite !det_child by (assumption || discriminate).
  change (FirstChildElement "type" _) with (Some (XElem "type" (attrs_of [("technology", technology type)]) []))%string.
  change (FirstChildElement "shell" _) with (Some (XElem "shell" (attrs_of [("halfLength", print_double half); ("gap", print_double gap); ("innerRadius", print_double rIn);
                            ("outerRadius", print_double rOut); ("radLength", print_double rad)]) []))%string.
  change (FirstChildElement "layers" _) with (Some (XElem "layers" [] (map zelem h))).
  cbv zeta iota. unfold attr_of. pose proof (type_pairs_ok type) as TP. look TP.
  pose proof (shell_pairs_ok rIn rOut half gap rad) as SP. unfold double_of, attr_of. look SP. unfold iterate_of. cbn [rbind].
  assert (I : IterateChildren "layer" (XElem "layers" [] (map zelem h)) = map zelem h).
  { unfold IterateChildren. apply filter_all. intros x I. apply in_map_iff in I. destruct I as [a [<- _]]. reflexivity. }
  rewrite I. rewrite det_params; [|assumption | assumption | intros x [<-|[<-|[<-|[]]]]; discriminate].
  unfold technology. destruct (Z.leb_spec 1 type), (Z.leb_spec type 3); cbn [andb].
  - assert (Ty : (type = 1 \/ type = 2 \/ type = 3)%Z) by lia.
    assert (E : forall k, rfold read_zlayer (map zelem h) (new_zplanar k (reread rIn) (reread rOut) (reread half) (reread gap) (reread rad)) =
       Ok (zp_made k (reread rIn) (reread rOut) (reread half) (reread gap) (reread rad) (map reread_ladders h))).
    { intros k. unfold zp_made. rewrite fold_map. apply rfold_each. intros s a A. apply read_zelem. apply N. exact A. }
    destruct Ty as [-> | [-> | ->]]; cbn [Z.eqb Pos.eqb String.eqb Ascii.eqb Bool.eqb rbind]; fold (reread rIn) (reread rOut) (reread half) (reread gap) (reread rad);
      rewrite E; reflexivity.
  - destruct (Z.eqb_spec type 1), (Z.eqb_spec type 2), (Z.eqb_spec type 3); try lia. reflexivity.
  - destruct (Z.eqb_spec type 1), (Z.eqb_spec type 2), (Z.eqb_spec type 3); try lia. reflexivity.
  - lia.
Qed.

Lemma reload_zp : forall type rIn rOut half gap rad h p, sorted_params p -> text_ok_params p ->
  (forall a, In a h -> is_int (za_n a)) ->
  reload zp_toXML zp_fromXML (zp_made type rIn rOut half gap rad h, p) =
  if ((1 <=? type) && (type <=? 3))%Z%bool
  then Ok (zp_made type (reread rIn) (reread rOut) (reread half) (reread gap) (reread rad) (map reread_ladders h), back p)
  else Throw (EGear "Unknown").
Proof.
  intros type rIn rOut half gap rad h p S T N. unfold reload. rewrite zp_element by exact S. cbn [rbind].
  rewrite via_writable; [|apply det_writable; [reflexivity | apply no_pairs | exact S | exact T | apply zp_fixed_writable] | reflexivity].
  cbn [rbind]. apply zp_read; assumption.
Qed.

Lemma map_eq_iff : forall {A B} (f g : A -> B) l, map f l = map g l <-> forall x, In x l -> f x = g x.
Proof.
  intros A B f g l. induction l as [|x l IH]; cbn; split; intros H; try reflexivity.
  - intros y [].
  - injection H as H1 H2. intros y [<-|Y]; [exact H1 | apply IH; assumption].
  - rewrite (H x) by (left; reflexivity). f_equal. apply IH. intros y Y. apply H. right. exact Y.
Qed.

Lemma zp_made_eta : forall type rIn rOut half gap rad h, zp_made type rIn rOut half gap rad h =
  mkZ (map (fun a => layer_of a (za_lad a)) h) (map (fun a => layer_of a (za_sen a)) h) type rIn rOut half gap rad.
Proof.
  intros type rIn rOut half gap rad h. destruct (zp_made_fields type rIn rOut half gap rad h) as [A [B [C [D [E F]]]]].
  destruct (made_l type rIn rOut half gap rad h) as [G H]. destruct (zp_made type rIn rOut half gap rad h); cbn in *. subst. reflexivity.
Qed.

Lemma ladders_survive : forall type rIn rOut half gap rad h hp,
  let o := (zp_made type rIn rOut half gap rad h, after hp) in
  storable (after hp) -> (forall a, In a h -> is_int (za_n a)) ->
  (reload zp_toXML zp_fromXML o = Ok o <->
   (1 <= type <= 3)%Z /\ (kept rIn /\ kept rOut /\ kept half /\ kept gap /\ kept rad) /\
   (forall a, In a h -> kept_ladders a) /\ survive (after hp)).
Proof.
  intros type rIn rOut half gap rad h hp o SP N. unfold o. rewrite reload_zp by (try apply after_sorted; try apply storable_text; assumption).
  pose proof (back_same_iff (after hp) (after_sorted hp)) as B. fold (survive (after hp)) in B. rewrite <- B.
  rewrite !zp_made_eta, !map_map.
  destruct ((1 <=? type)%Z && (type <=? 3)%Z)%bool eqn:Ty.
  - assert (T3 : (1 <= type <= 3)%Z) by (apply andb_true_iff in Ty; lia). split.
    + intros E. injection E as E1 E2 E3 E4 E5 E6 E7 E8. split; [exact T3|].
      split; [repeat split; assumption|]. split; [|exact E8].
      intros a I. pose proof (proj1 (map_eq_iff _ _ h) E1 a I) as L1. pose proof (proj1 (map_eq_iff _ _ h) E2 a I) as L2.
      injection L1. injection L2. intros. unfold kept_ladders, kept_part, kept.
      assert (PH : reread (za_phi0 a) = za_phi0 a) by lra. repeat split; assumption.
    + intros [_ [[K1 [K2 [K3 [K4 K5]]]] [K6 K7]]]. rewrite K7. unfold kept in *. unfold reread. rewrite K1, K2, K3, K4, K5.
      do 2 f_equal. f_equal; apply map_eq_iff; intros a I; destruct (K6 a I) as [Q1 [[A1 [A2 [A3 [A4 [A5 A6]]]]] [B1 [B2 [B3 [B4 [B5 B6]]]]]]];
        unfold layer_of; cbn; unfold reread, kept in *; congruence.
  - split; [discriminate|]. intros [H _]. exfalso. apply andb_false_iff in Ty. lia.
Qed.

Lemma ladders_back : forall type rIn rOut half gap rad h hp, (1 <= type <= 3)%Z -> storable (after hp) ->
  (forall a, In a h -> is_int (za_n a)) ->
  exists p', reload zp_toXML zp_fromXML (zp_made type rIn rOut half gap rad h, after hp) =
    Ok (zp_made type (reread rIn) (reread rOut) (reread half) (reread gap) (reread rad) (map reread_ladders h), p').
Proof.
  intros type rIn rOut half gap rad h hp T SP N. rewrite reload_zp by (try apply after_sorted; try apply storable_text; assumption).
  destruct (Z.leb_spec 1 type), (Z.leb_spec type 3); try lia. eexists. reflexivity.
Qed.
Lemma ladders_unknown : forall type rIn rOut half gap rad h hp, ~ (1 <= type <= 3)%Z -> storable (after hp) ->
  (forall a, In a h -> is_int (za_n a)) ->
  reload zp_toXML zp_fromXML (zp_made type rIn rOut half gap rad h, after hp) = Throw (EGear "Unknown").
Proof.
  intros type rIn rOut half gap rad h hp T SP N. rewrite reload_zp by (try apply after_sorted; try apply storable_text; assumption).
  destruct (Z.leb_spec 1 type), (Z.leb_spec type 3); cbn [andb]; try lia; reflexivity.
Qed.
