(** Proofs about whole geometries in files (C38): the file. *)
From Coq Require Import ZArith List String Ascii Bool Reals Lia Lra Sorted.
From Verif Require Import Base BaseProofs RBase VecModel XmlModel XmlSpec XmlProofs XmlProofs3 NumModel NumSpec NumProofs HxModel HxSpec HxProofs
  ParamsModel ParamsSpec ParamsProofs ParXmlModel ParXmlSpec ParXmlProofs CaloModel CaloXmlModel CaloXmlProofs ZpModel FtdModel
  PadXmlModel PadXmlProofs PadXmlProofs2 TrkModel TrkXmlModel TrkXmlSpec TrkXmlProofs TrkXmlProofs2 TrkXmlProofs3 TrkXmlProofs4
  TpcModuleModel TpcModel TpcXmlModel TpcXmlSpec TpcXmlProofs TpcXmlProofs2 GearXmlModel GearXmlSpec GearXmlProofs.
Import ListNotations.
Open Scope list_scope.

(** ** One detector *)
Lemma reload_good : forall {O} (write : O -> result xnode) read l o, pairs_ok l -> good write read l o -> reload write read o = rbind (write o) read.
Proof.
  intros O write read l o P [_ G]. unfold reload. destruct (write o) as [n| |] eqn:E; [|reflexivity..]. cbn [rbind].
  destruct (G n eq_refl) as [ch [-> [N _]]]. rewrite via_writable; [reflexivity | | reflexivity]. apply node_writable; [reflexivity | exact P | exact N].
Qed.

Definition label_pairs (name type : string) : list (string * string) := [("name", name); ("geartype", type)]%string.
Lemma label_ok : forall name type, clean name -> clean type -> pairs_ok (label_pairs name type).
Proof. intros name type N T. unfold label_pairs. pairs. Qed.
(** the attributes after labelling *)
Definition labels (l : list (string * string)) (name type : string) (l' : list (string * string)) : Prop :=
  forall ch, labelled name type (XElem "detector" (attrs_of l) ch) = XElem "detector" (attrs_of l') ch.
Lemma labels_none : forall name type, labels [] name type (label_pairs name type).
Proof. intros name type ch. reflexivity. Qed.
Definition tpc_labels : list (string * string) := [("geartype", "TPCParameters"); ("name", "TPC")]%string.
Lemma labels_tpc : labels tpc_pairs "TPC" "TPCParameters" tpc_labels.
Proof. intros ch. reflexivity. Qed.
Lemma tpc_labels_ok : pairs_ok tpc_labels.
Proof. unfold tpc_labels. pairs. Qed.

Lemma calo_name_clean : forall s, clean (calo_name s).
Proof. intros []; apply plain_clean; reflexivity. Qed.
Lemma zp_name_clean : forall s, clean (zp_name s).
Proof. intros []; apply plain_clean; reflexivity. Qed.

(** ** Steps that succeed if something holds, and then do something *)
Definition does (A : content -> sres content unit) (P : Prop) (F : content -> content) : Prop :=
  forall g g', A g = SOk g' tt <-> P /\ g' = F g.
Lemma does_nothing : does (fun g => SOk g tt) True (fun g => g).
Proof. intros g g'. split; [intros H; injection H as <-; auto | intros [_ ->]; reflexivity]. Qed.
Lemma does_then : forall A P F B Q G, does A P F -> does B Q G -> does (fun g => sthen (A g) B) (P /\ Q) (fun g => G (F g)).
Proof.
  intros A P F B Q G HA HB g g'. unfold sthen. split.
  - destruct (A g) as [g1 []|? ?|] eqn:E; intros H; try discriminate. apply HA in E. destruct E as [HP ->]. apply HB in H. destruct H as [HQ ->]. auto.
  - intros [[HP HQ] ->]. rewrite (proj2 (HA g (F g)) (conj HP eq_refl)). apply HB. auto.
Qed.
Lemma each_app : forall f a b g, each f (a ++ b) g = sthen (each f a g) (each f b).
Proof.
  intros f a. induction a as [|n a IH]; intros b g; [cbn; reflexivity|]. cbn [app each]. unfold sthen at 1 3.
  destruct (f g n) as [g1 []|? ?|]; [apply IH | reflexivity..].
Qed.
Lemma does_ext : forall A A' P P' F F', does A P F -> (forall g, A g = A' g) -> (P <-> P') -> (forall g, F g = F' g) -> does A' P' F'.
Proof. intros A A' P P' F F' D E1 E2 E3 g g'. rewrite <- E1, <- E2, <- E3. apply D. Qed.
Lemma does_app : forall f a b P F Q G, does (each f a) P F -> does (each f b) Q G -> does (each f (a ++ b)) (P /\ Q) (fun g => G (F g)).
Proof.
  intros f a b P F Q G HA HB. eapply does_ext; [exact (does_then _ _ _ _ _ _ HA HB) | | reflexivity | reflexivity].
  intros g. cbv beta. symmetry. apply each_app.
Qed.

(** what came back, and storing it *)
Definition val {O} (write : O -> result xnode) (read : xnode -> result O) (o : option O) : option O :=
  match o with Some x => match reload write read x with Ok y => Some y | _ => None end | None => None end.
Definition store {O} (put : content -> O -> content) (v : option O) (g : content) : content :=
  match v with Some y => put g y | None => g end.
Lemma val_back : forall {O} (write : O -> result xnode) read o, comes_back write read o -> back_in write read o (val write read o).
Proof. intros O write read [x|]; [|reflexivity]. intros [y E]. cbn. rewrite E. exists y. auto. Qed.

(** one slot *)
Lemma slot_does : forall {O} (write : O -> result xnode) (read : xnode -> result O) (put : content -> O -> content) l l' name type o ns,
  pairs_ok l -> pairs_ok l' -> labels l name type l' -> assoc "name" l' = Some name -> assoc "geartype" l' = Some type ->
  (forall x, o = Some x -> good write read l x) ->
  (forall g n, handle g type name n = hand_over g (read n) (put g)) ->
  String.eqb type "VXDParameters" = false ->
  detector_elem write name type o = Ok ns ->
  does (each read_detector ns) (comes_back write read o) (store put (val write read o)) /\ nodes_ok ns /\ (forall x, In x ns -> Value x = "detector"%string).
Proof.
  intros O write read put l l' name type o ns PL PL' LL AN AT G H V E. destruct o as [x|]; cbn [detector_elem] in E.
  - specialize (G x eq_refl). pose proof (reload_good write read l x PL G) as RG. destruct G as [K G].
    destruct (write x) as [n|e|] eqn:W.
    + cbn [rmap tried] in E. injection E as <-. destruct (G n eq_refl) as [ch [-> [N RD]]]. rewrite LL. cbn [rbind] in RG.
      split; [|split; [intros y [<-|[]]; split; [apply node_writable; [reflexivity | exact PL' | exact N] | reflexivity] | intros y [<-|[]]; reflexivity]].
      intros g g'. cbn [each]. unfold read_detector. rewrite !lookup, AN, AT by exact PL'. rewrite V, H.
      rewrite RD, <- RG. cbn [comes_back val]. destruct (reload write read x) as [y|e|]; cbn [hand_over sthen store].
      * split; [intros F; injection F as <-; split; [eauto | reflexivity] | intros [_ ->]; reflexivity].
      * split; [discriminate | intros [[y Y] _]; discriminate].
      * split; [discriminate | intros [[y Y] _]; discriminate].
    + cbn [rmap tried] in E. destruct e; try discriminate. destruct (K msg eq_refl).
    + discriminate.
  - injection E as <-. split; [apply does_nothing|]. split; intros x [].
Qed.
Lemma slot_written : forall {O} (write : O -> result xnode) (read : xnode -> result O) l name type o,
  pairs_ok l -> (forall x, o = Some x -> good write read l x) -> comes_back write read o -> exists ns, detector_elem write name type o = Ok ns.
Proof.
  intros O write read l name type [x|] P G C; [|eexists; reflexivity]. cbn [detector_elem comes_back] in *. destruct C as [y C].
  rewrite (reload_good write read l x P (G x eq_refl)) in C. destruct (write x); try discriminate. eexists. reflexivity.
Qed.

(** ** The calorimeters *)
Lemma place_calo : forall s o, calo_place (calo_name s) (match c_type (fst o) with BARREL => true | ENDCAP => false end) = Some (lands s o).
Proof. intros s [c p]. cbn [fst]. unfold lands. cbn [fst]. destruct s, (c_type c); reflexivity. Qed.
Lemma place_zp : forall s, zp_place (zp_name s) = Some s.
Proof. intros []; reflexivity. Qed.
Definition put_calo (s : calo_slot) (g : content) (o : calo_obj) : content := set_calo g (lands s o) o.
Definition put_zp (s : zp_slot) (g : content) (o : zp_obj) : content := set_zp g s o.

Definition calo_val (g : content) (s : calo_slot) : option calo_obj := val calo_toXML calo_fromXML (g_calo g s).
Definition calo_back (g : content) (s : calo_slot) : Prop := comes_back calo_toXML calo_fromXML (g_calo g s).
Lemma hand_over_ext : forall {O} g (r : result O) f f', (forall o, f o = f' o) -> hand_over g r f = hand_over g r f'.
Proof. intros O g [o|e|] f f' H; cbn; [rewrite H|..]; reflexivity. Qed.

Lemma calo_does : forall g0 s ns, (forall o, g_calo g0 s = Some o -> params_ok (snd o)) -> calo_elem g0 s = Ok ns ->
  does (each read_detector ns) (calo_back g0 s) (store (put_calo s) (calo_val g0 s)) /\ nodes_ok ns /\ (forall x, In x ns -> Value x = "detector"%string).
Proof.
  intros g0 s ns P E. apply (slot_does calo_toXML calo_fromXML (put_calo s) [] (label_pairs (calo_name s) "CalorimeterParameters") (calo_name s) "CalorimeterParameters").
  - apply no_pairs.
  - apply label_ok; [apply calo_name_clean | apply plain_clean; reflexivity].
  - apply labels_none.
  - reflexivity.
  - reflexivity.
  - intros o O. apply calo_good. apply P. exact O.
  - intros g n. apply hand_over_ext. intros o. rewrite place_calo. reflexivity.
  - reflexivity.
  - exact E.
Qed.
Lemma zp_does : forall g0 s ns, (forall o, g_zp g0 s = Some o -> params_ok (snd o)) -> zp_elem g0 s = Ok ns ->
  does (each read_detector ns) (comes_back zp_toXML zp_fromXML (g_zp g0 s)) (store (put_zp s) (val zp_toXML zp_fromXML (g_zp g0 s))) /\
  nodes_ok ns /\ (forall x, In x ns -> Value x = "detector"%string).
Proof.
  intros g0 s ns P E. apply (slot_does zp_toXML zp_fromXML (put_zp s) [] (label_pairs (zp_name s) "ZPlanarParameters") (zp_name s) "ZPlanarParameters").
  - apply no_pairs.
  - apply label_ok; [apply zp_name_clean | apply plain_clean; reflexivity].
  - apply labels_none.
  - reflexivity.
  - reflexivity.
  - intros o O. apply zp_good. apply P. exact O.
  - intros g n. apply hand_over_ext. intros o. rewrite place_zp. reflexivity.
  - reflexivity.
  - exact E.
Qed.
Definition put_calos (g0 : content) (l : list calo_slot) (g : content) : content := fold_left (fun g s => store (put_calo s) (calo_val g0 s) g) l g.
Lemma calos_does : forall g0 l nss, (forall s o, g_calo g0 s = Some o -> params_ok (snd o)) -> rall (calo_elem g0) l = Ok nss ->
  does (each read_detector (List.concat nss)) (forall s, In s l -> calo_back g0 s) (put_calos g0 l) /\
  nodes_ok (List.concat nss) /\ (forall x, In x (List.concat nss) -> Value x = "detector"%string).
Proof.
  intros g0 l. induction l as [|s l IH]; intros nss P E; cbn in E.
  - injection E as <-. cbn [List.concat each]. split; [|split; intros x []]. eapply does_ext; [apply does_nothing | reflexivity | | reflexivity]. split; [intros _ s [] | auto].
  - destruct (calo_elem g0 s) as [ns| |] eqn:Es; try discriminate. cbn in E. destruct (rall (calo_elem g0) l) as [rs| |] eqn:El; try discriminate.
    cbn in E. injection E as <-. destruct (calo_does g0 s ns (P s) Es) as [D [N V]]. destruct (IH rs P eq_refl) as [Ds [Ns Vs]]. cbn [List.concat].
    split; [|split; [apply nodes_app; assumption | intros x I; apply in_app_or in I; destruct I; auto]].
    eapply does_ext; [apply does_app; [exact D | exact Ds] | reflexivity | | reflexivity].
    split; [intros [A B] x [<-|X]; auto | intros H; split; [apply H; left; reflexivity | intros x X; apply H; right; exact X]].
Qed.

(** ** The parameters *)
Definition generic_node (kp : string * params) : xnode := XElem "detector" (attrs_of (label_pairs (fst kp) "GearParameters")) (all_elems (snd kp)).
Lemma generic_written : forall l, (forall kp, In kp l -> params_ok (snd kp)) -> rall generic_elem l = Ok (map generic_node l).
Proof.
  intros l H. apply rall_ok. intros [k p] I. unfold generic_elem, parameters_toXML. cbn [fst snd]. destruct (ok_params p (H _ I)) as [S T].
  rewrite to_xml_elems by exact S. reflexivity.
Qed.
Lemma generic_nodes_ok : forall l, (forall kp, In kp l -> clean (fst kp) /\ params_ok (snd kp)) ->
  nodes_ok (map generic_node l) /\ (forall x, In x (map generic_node l) -> Value x = "detector"%string).
Proof.
  intros l H. split; intros x I; apply in_map_iff in I; destruct I as [[k p] [<- I]]; [|reflexivity]. destruct (H _ I) as [C P]. split; [|reflexivity].
  apply node_writable; [reflexivity | apply label_ok; [exact C | apply plain_clean; reflexivity] | apply nodes_params; exact P].
Qed.
Lemma generic_read : forall a p, sorted_params p -> text_ok_params p -> parameters_fromXML (XElem "detector" a (all_elems p)) = Ok (back p).
Proof. intros a p S T. apply (det_params "detector" a [] p S T). intros x []. Qed.
Lemma generic_does : forall l, (forall kp, In kp l -> clean (fst kp) /\ params_ok (snd kp)) ->
  does (each read_detector (map generic_node l)) True (fun g => fold_left (fun g kp => set_generic g (fst kp) (back (snd kp))) l g).
Proof.
  intros l. induction l as [|[k p] l IH]; intros H; [apply does_nothing|].
  assert (D : does (each read_detector [generic_node (k, p)]) True (fun g => set_generic g k (back p))).
  { intros g g'. destruct (H (k, p) (or_introl eq_refl)) as [C P]. cbn [fst snd] in C, P. destruct (ok_params p P) as [S T].
    cbn [each]. unfold read_detector, generic_node. cbn [fst snd]. rewrite !lookup by (apply label_ok; [exact C | apply plain_clean; reflexivity]).
    cbn [label_pairs assoc String.eqb Ascii.eqb Bool.eqb]. unfold handle. cbn [String.eqb Ascii.eqb Bool.eqb].
    rewrite (generic_read _ p S T). cbn [hand_over sthen]. split; [intros F; injection F as <-; auto | intros [_ ->]; reflexivity]. }
  eapply does_ext; [apply (does_app _ _ _ _ _ _ _ D (IH (fun kp I => H kp (or_intror I)))) | reflexivity | tauto | reflexivity].
Qed.

(** ** The materials *)
Definition mat_node (m : smat) : xnode := XElem "material" (attrs_of (smat_pairs m)) [].
Lemma mats_written : forall l, rall smat_toXML l = Ok (map mat_node l).
Proof. intros l. apply rall_ok. intros m _. reflexivity. Qed.
Definition add_mats (l : list smat) (g : content) : content :=
  mkG (g_name g) (g_field g) (g_tpc g) (g_calo g) (g_zp g) (g_ftd g) (g_tp g) (g_si g) (g_generic g)
    (g_mat g ++ map (fun m => (sm_name m, reread_smat m)) l).
Lemma read_mat_node : forall g m, clean (sm_name m) -> read_material g (mat_node m) =
  match sm_find (sm_name m) (g_mat g) with Some _ => SThrow g (EGear "already registered") | None => SOk (set_mat g (sm_name m) (reread_smat m)) tt end.
Proof. intros g m C. unfold read_material, mat_node. cbn [is_elem]. rewrite smat_read by exact C. reflexivity. Qed.
Lemma mats_read : forall l g, (forall m, In m l -> clean (sm_name m)) -> StronglySorted slt (map sm_name l) ->
  (forall x m, In x (sm_keys (g_mat g)) -> In m l -> slt x (sm_name m)) ->
  each read_material (map mat_node l) g = SOk (add_mats l g) tt.
Proof.
  induction l as [|m l IH]; intros g C S B.
  - cbn. unfold add_mats. cbn. rewrite app_nil_r. destruct g; reflexivity.
  - cbn [map each]. rewrite read_mat_node by (apply C; left; reflexivity).
    rewrite (proj2 (sm_find_none_iff (g_mat g) (sm_name m))).
    2:{ intros I. specialize (B _ m I (or_introl eq_refl)). apply (slt_irrefl _ B). }
    cbn [sthen]. inversion S as [|? ? SS FA]; subst. rewrite Forall_forall in FA. rewrite IH.
    + f_equal. unfold add_mats, set_mat. cbn [g_name g_field g_tpc g_calo g_zp g_ftd g_tp g_si g_generic g_mat]. f_equal.
      rewrite sm_set_end by (intros x X; apply (B x m X); left; reflexivity). rewrite <- app_assoc. reflexivity.
    + intros m' M'. apply C. right. exact M'.
    + exact SS.
    + intros x m' X M'. cbn [set_mat g_mat] in X. apply sm_keys_set_in in X. destruct X as [->|X].
      * apply FA. apply in_map. exact M'.
      * apply (B x m' X). right. exact M'.
Qed.
