(** Proofs about whole geometries in files (C38): what each handler writes. *)
From Coq Require Import ZArith List String Ascii Bool Reals Lia Lra.
From Verif Require Import Base BaseProofs RBase VecModel XmlModel XmlSpec XmlProofs NumModel NumSpec NumProofs HxModel HxSpec HxProofs
  ParamsModel ParamsSpec ParamsProofs ParXmlModel ParXmlSpec ParXmlProofs CaloModel CaloXmlModel CaloXmlProofs ZpModel FtdModel
  PadXmlModel PadXmlProofs PadXmlProofs2 TrkModel TrkXmlModel TrkXmlSpec TrkXmlProofs TrkXmlProofs2 TrkXmlProofs3 TrkXmlProofs4
  TpcModuleModel TpcModel TpcXmlModel TpcXmlSpec TpcXmlProofs TpcXmlProofs2 GearXmlModel GearXmlSpec.
Import ListNotations.
Open Scope list_scope.

(** ** No handler throws an UnknownParameterException while it writes *)
Definition known {A} (r : result A) : Prop := forall k, r <> Throw (EUnknownParameter k).
Lemma known_ok : forall {A} (x : A), known (Ok x). Proof. intros A x k. discriminate. Qed.
Lemma known_bind : forall {A B} (r : result A) (f : A -> result B), known r -> (forall x, known (f x)) -> known (rbind r f).
Proof. intros A B [x|e|] f R F k; cbn; [apply F | | discriminate]. intros E. injection E as ->. apply (R k). reflexivity. Qed.
Lemma known_map : forall {A B} (r : result A) (f : A -> B), known r -> known (rmap f r).
Proof. intros A B [x|e|] f R k; cbn; try discriminate. intros E. injection E as ->. apply (R k). reflexivity. Qed.
Lemma known_all : forall {A B} (f : A -> result B) l, (forall x, In x l -> known (f x)) -> known (rall f l).
Proof.
  intros A B f l. induction l as [|x l IH]; intros H; [apply known_ok|]. cbn. apply known_bind; [apply H; left; reflexivity|].
  intros y. apply known_bind; [apply IH; intros z Z; apply H; right; exact Z | intros; apply known_ok].
Qed.
Lemma known_at : forall {A} (l : list A) i, known (at_ l i).
Proof. intros A l i k. unfold at_. destruct (nthZ l i); discriminate. Qed.
Lemma known_params : forall p, sorted_params p -> known (params_to_xml p).
Proof. intros p S. rewrite to_xml_elems by exact S. apply known_ok. Qed.

(** ** The elements: [name], some attributes, and children that are elements; other attributes do not
    change what is read *)
Definition nodes_ok (ch : list xnode) : Prop := forall x, In x ch -> writable x /\ is_elem x = true.
Definition good {O} (write : O -> result xnode) (read : xnode -> result O) (l : list (string * string)) (o : O) : Prop :=
  known (write o) /\
  forall n, write o = Ok n -> exists ch, n = XElem "detector" (attrs_of l) ch /\ nodes_ok ch /\ forall a, read (XElem "detector" a ch) = read n.

Lemma ok_params : forall p, params_ok p -> sorted_params p /\ text_ok_params p.
Proof. intros p [[h ->] S]. split; [apply after_sorted | apply storable_text; exact S]. Qed.
Lemma nodes_app : forall a b, nodes_ok a -> nodes_ok b -> nodes_ok (a ++ b).
Proof. intros a b A B x I. apply in_app_or in I. destruct I; auto. Qed.
Lemma nodes_params : forall p, params_ok p -> nodes_ok (all_elems p).
Proof. intros p P x I. destruct (ok_params p P) as [S T]. destruct (all_elems_in p x S T I) as [W [E _]]. split; assumption. Qed.
Lemma rall_in : forall {A B} (f : A -> result B) l r, rall f l = Ok r -> forall y, In y r -> exists x, In x l /\ f x = Ok y.
Proof.
  intros A B f l. induction l as [|x l IH]; intros r H y Y; cbn in H; [injection H as <-; destruct Y|].
  destruct (f x) as [b| |] eqn:E; try discriminate. cbn in H. destruct (rall f l) as [bs| |] eqn:F; try discriminate. cbn in H. injection H as <-.
  destruct Y as [<-|Y]; [exists x; split; [left; reflexivity | exact E]|]. destruct (IH bs eq_refl y Y) as [z [Z1 Z2]]. exists z. split; [right; exact Z1 | exact Z2].
Qed.

Lemma ok_inj : forall {A} (x y : A), Ok x = Ok y -> x = y.
Proof. intros A x y H. injection H as H. exact H. Qed.
Ltac peel H := repeat match type of H with rbind ?r _ = Ok _ => let E := fresh "E" in destruct r eqn:E; cbn [rbind] in H; [|discriminate H|discriminate H] end.
Ltac elem_ok := split; [|reflexivity]; first [apply leaf_writable | apply node_writable]; [reflexivity | pairs | ..].

Lemma zlayer_written : forall p i n, zp_layer_elem p i = Ok n -> writable n /\ is_elem n = true.
Proof.
  intros p i n H. unfold zp_layer_elem in H. peel H. injection H as <-. split; [|reflexivity]. apply node_writable; [reflexivity | pairs|].
  intros x [<-|[<-|[]]]; (split; [apply leaf_writable; [reflexivity | pairs] | reflexivity]).
Qed.
Lemma zp_good : forall o, params_ok (snd o) -> good zp_toXML zp_fromXML [] o.
Proof.
  intros [p ps] P. cbn [snd] in P. destruct (ok_params ps P) as [S T]. split.
  - unfold zp_toXML. apply known_bind.
    + apply known_all. intros i _. unfold zp_layer_elem. repeat (apply known_bind; [apply known_map, known_at | intros ?]). apply known_ok.
    + intros ls. apply known_bind; [apply known_params; exact S | intros; apply known_ok].
  - intros n H. unfold zp_toXML in H. rewrite to_xml_elems in H by exact S. peel H. apply ok_inj in H. subst n.
    eexists. split; [reflexivity|]. split; [|reflexivity]. apply nodes_app; [|apply nodes_params; exact P].
    intros x [<-|[<-|[<-|[]]]].
    + pose proof (technology_clean (z_type p)). elem_ok.
    + elem_ok.
    + split; [|reflexivity]. apply (node_writable "layers" []); [reflexivity | apply no_pairs|]. intros x I.
      destruct (rall_in _ _ _ E x I) as [i [_ L]]. apply (zlayer_written _ _ _ L).
Qed.

Lemma flayer_written : forall p i n, ftd_layer_elem p i = Ok n -> writable n /\ is_elem n = true.
Proof.
  intros p i n H. unfold ftd_layer_elem in H. peel H. injection H as <-. split; [|reflexivity].
  match goal with |- context[sensor_type ?t] => pose proof (sensor_clean t) end. apply node_writable; [reflexivity | pairs|].
  intros x [<-|[<-|[]]]; (split; [apply leaf_writable; [reflexivity | pairs] | reflexivity]).
Qed.
Lemma ftd_good : forall o, params_ok (snd o) -> good ftd_toXML ftd_fromXML [] o.
Proof.
  intros [f ps] P. cbn [snd] in P. destruct (ok_params ps P) as [S T]. split.
  - unfold ftd_toXML. apply known_bind.
    + apply known_all. intros i _. unfold ftd_layer_elem. repeat (apply known_bind; [apply known_map, known_at | intros ?]). apply known_ok.
    + intros ls. apply known_bind; [apply known_params; exact S | intros; apply known_ok].
  - intros n H. unfold ftd_toXML in H. rewrite to_xml_elems in H by exact S. peel H. apply ok_inj in H. subst n.
    eexists. split; [reflexivity|]. split; [|reflexivity]. apply nodes_app; [|apply nodes_params; exact P].
    intros x [<-|[]]. split; [|reflexivity]. apply (node_writable "layers" []); [reflexivity | apply no_pairs|]. intros x I.
    destruct (rall_in _ _ _ E x I) as [i [_ L]]. apply (flayer_written _ _ _ L).
Qed.

Lemma si_good : forall o, params_ok (snd o) -> good si_toXML si_fromXML [] o.
Proof.
  intros [s ps] P. cbn [snd] in P. destruct (ok_params ps P) as [S T]. split.
  - unfold si_toXML. apply known_bind.
    + apply known_all. intros i _. unfold si_layer_elem. repeat (apply known_bind; [apply known_at | intros ?]). apply known_ok.
    + intros ls. apply known_bind; [apply known_params; exact S | intros; apply known_ok].
  - intros n H. unfold si_toXML in H. rewrite to_xml_elems in H by exact S. peel H. apply ok_inj in H. subst n.
    eexists. split; [reflexivity|]. split; [|reflexivity].
    apply nodes_app; [|apply nodes_app; [|apply nodes_app; [|apply nodes_params; exact P]]].
    + intros x [<-|[<-|[<-|[]]]]; [elem_ok | | elem_ok].
      assert (clean (si_type_text (si_type s))) by (unfold si_type_text; destruct (si_type s =? 1)%Z, (si_type s =? 2)%Z; apply plain_clean; reflexivity).
      elem_ok.
    + destruct (si_type s =? 1)%Z; intros x; [intros [<-|[]]|intros []]. split; [apply dut_writable | reflexivity].
    + intros x [<-|[]]. split; [|reflexivity]. apply (node_writable "layers" []); [reflexivity | apply no_pairs|]. intros x I.
      destruct (rall_in _ _ _ E x I) as [i [_ L]]. unfold si_layer_elem in L. peel L. injection L as <-. apply (selem_writable (_, _)).
Qed.

Lemma tp_good : forall o, params_ok (snd o) -> (forall l, In l (tp_layers (fst o)) -> tl_ok l) -> good tp_toXML tp_fromXML [] o.
Proof.
  intros [t ps] P L. cbn [fst snd] in P, L. destruct (ok_params ps P) as [S T]. rewrite <- (app_nil_l (@nil (string * string))). split.
  - unfold tp_toXML. apply known_bind; [apply known_params; exact S | intros; apply known_ok].
  - intros n H. rewrite tp_element in H by exact S. apply ok_inj in H. subst n. eexists. split; [reflexivity|]. split; [|reflexivity].
    apply nodes_app; [|apply nodes_params; exact P]. unfold tp_fixed. apply nodes_app.
    + intros x [<-|[<-|[]]]; elem_ok.
    + intros x I. apply in_map_iff in I. destruct I as [l [<- LL]]. split; [|reflexivity].
      apply (node_writable "layer" []); [reflexivity | apply no_pairs|]. intros y Y. apply (parts_writable l); [apply L; exact LL | exact Y].
Qed.

Lemma parameters_good : forall p, params_ok p -> good parameters_toXML parameters_fromXML [] p.
Proof.
  intros p P. destruct (ok_params p P) as [S T]. split.
  - unfold parameters_toXML. apply known_map, known_params. exact S.
  - intros n H. unfold parameters_toXML in H. rewrite to_xml_elems in H by exact S. injection H as <-. eexists. split; [reflexivity|].
    split; [apply nodes_params; exact P | reflexivity].
Qed.

Lemma calo_good : forall o, params_ok (snd o) -> good calo_toXML calo_fromXML [] o.
Proof.
  intros [c ps] P. cbn [snd] in P. destruct (ok_params ps P) as [S T]. split.
  - unfold calo_toXML. assert (K : forall e, known (rbind (calo_head c e) (fun h => rbind (params_to_xml ps) (fun p =>
      Ok (XElem "detector" [] (h ++ layer_elems (mkLayer 0 0 0 0 0) 0 (c_layout c) ++ p)))))).
    { intros e. apply known_bind; [unfold calo_head; destruct (Nat.eqb _ _); intros k; discriminate|]. intros h.
      apply known_bind; [apply known_params; exact S | intros; apply known_ok]. }
    unfold getExtent. destruct (0 <? _)%Z; [|apply K]. destruct (rbind _ _) as [x|e|] eqn:E; [apply K | | intros k; discriminate].
    intros k F. injection F as ->. revert E. unfold getDistance, getThickness. 
    assert (KK : known (rbind (rmap L_Distance (at_ (c_layout c) (getNLayers (c_layout c) - 1))) (fun d =>
       rbind (rmap L_Thickness (at_ (c_layout c) (getNLayers (c_layout c) - 1))) (fun t => Ok (d + t)%R)))).
    { repeat (apply known_bind; [apply known_map, known_at | intros ?]). apply known_ok. }
    intros E. apply (KK k). exact E.
  - intros n H. unfold calo_toXML in H. destruct (getExtent c) as [c' e|? ?|]; try discriminate.
    unfold calo_head in H. destruct (Nat.eqb (List.length e) 4) eqn:L4; [|discriminate]. cbn [rbind] in H. rewrite to_xml_elems in H by exact S.
    cbn [rbind] in H. injection H as <-.
    destruct e as [|a [|b [|z1 [|z2 [|]]]]]; try discriminate L4. cbn [nth].
    eexists. split; [reflexivity|]. split; [|reflexivity].
    change (nodes_ok ([XElem "layout" (attrs_of (layout_pairs c)) []; XElem "dimensions" (attrs_of (dims_pairs c a b z1 z2)) []]
      ++ layer_elems (mkLayer 0 0 0 0 0) 0 (c_layout c) ++ all_elems ps)).
    apply nodes_app; [|apply nodes_app; [|apply nodes_params; exact P]].
    + intros x [<-|[<-|[]]]; (split; [|reflexivity]); apply leaf_writable; try reflexivity; [apply layout_pairs_ok | apply dims_pairs_ok].
    + intros x I. destruct (layer_elems_in _ _ _ _ I) as [k [l ->]]. split; [apply layer_elem_writable | reflexivity].
Qed.

Lemma known_lay : forall p, known (lay_toXML p).
Proof.
  intros [l|l|l|l]; cbn [lay_toXML]; try apply known_ok. unfold rect_toXML. cbv zeta. apply known_bind; [|intros; apply known_ok].
  generalize 0%Z. generalize (firstn (Z.to_nat (if (1 <? RectModel.getRepeatRowCount l)%Z then Z.of_nat (List.length (RectModel._nRows l)) ÷ RectModel.getRepeatRowCount l
    else Z.of_nat (List.length (RectModel._nRows l)))%Z) (RectModel._nRows l)).
  intros nums. induction nums as [|u nums IH]; intros k; cbn [rect_row_elems]; [apply known_ok|].
  destruct (nthZ _ k); [apply known_map; apply IH | intros k'; discriminate].
Qed.
Lemma tpc_good : forall o, params_ok (to_par o) -> (forall a, In a (getModules (w_tpc (to_world o))) -> params_ok (to_mpar o a)) ->
  good tpc_toXML tpc_fromXML tpc_pairs o.
Proof.
  intros [w mp ps] P M. cbn [to_world to_mpar to_par] in P, M. destruct (ok_params ps P) as [S T]. split.
  - unfold tpc_toXML. cbn [to_world to_mpar to_par]. apply known_bind; [unfold type_name; destruct (_ =? _)%Z; [|destruct (_ =? _)%Z]; intros k; discriminate|].
    intros ty. apply known_bind; [|intros ms; apply known_bind; [apply known_params; exact S | intros; apply known_ok]].
    apply known_all. intros a I. unfold module_toXML. apply known_bind; [apply known_lay|]. intros lay.
    apply known_bind; [apply known_params; apply ok_params; apply M; exact I | intros; apply known_ok].
  - intros n H. destruct (type_name (getCoordinateType (w_tpc w))) as [ty| |] eqn:TN; [|unfold tpc_toXML in H; cbn [to_world] in H; rewrite TN in H; discriminate..].
    rewrite (tpc_element w mp ps ty TN S) in H. destruct (rall _ _) as [ms| |] eqn:E; try discriminate. cbn [rmap] in H. apply ok_inj in H. subst n.
    eexists. split; [reflexivity|]. split; [|reflexivity]. apply nodes_app; [|apply nodes_params; exact P].
    intros x [<-|[<-|[<-|[<-|[]]]]]; (split; [|reflexivity]); try (apply leaf_writable; [reflexivity | apply value_double_ok]).
    + apply leaf_writable; [reflexivity | apply (type_name_text _ _ TN)].
    + apply node_writable; [reflexivity | apply no_pairs|]. intros x I. destruct (rall_in _ _ _ E x I) as [a [A F]].
      destruct (ok_params _ (M a A)) as [SA TA]. rewrite module_element in F by exact SA. destruct (lay_toXML _) as [lay| |] eqn:LE; try discriminate. injection F as <-.
      destruct (lay_element _ _ LE) as [W [EL V]]. apply module_writable; assumption.
Qed.
