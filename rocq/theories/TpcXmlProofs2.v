(** Proofs about TPCs in files (C36): the whole TPC. *)
From Coq Require Import ZArith List String Ascii Bool Reals Lia Lra.
From Verif Require Import Base BaseProofs RBase XmlModel XmlSpec XmlProofs NumModel NumSpec NumProofs HxModel HxSpec HxProofs
  ParamsModel ParamsSpec ParamsProofs ParXmlModel ParXmlSpec ParXmlProofs PadXmlModel PadXmlProofs PadXmlProofs2 TrkXmlSpec TrkXmlProofs
  TpcModuleModel TpcModel TpcXmlModel TpcXmlSpec TpcModuleProofs TpcModuleProofs4 TpcProofs TpcXmlProofs.
From Verif Require TpcSpec.
Import TpcSpec.
Import ListNotations.
Open Scope list_scope.
Open Scope R_scope.

Definition tpc_fixed (t : tpc) (ty : string) (ms : list xnode) : list xnode :=
  [value_elem "maxDriftLength" (print_double (getMaxDriftLength t)); value_elem "driftVelocity" (print_double (getDriftVelocity t));
   value_elem "coordinateType" ty; XElem "modules" (attrs_of []) ms].
Definition tpc_pairs : list (string * string) := [("geartype", "TPCParameters")]%string.
Lemma tpc_pairs_ok : pairs_ok tpc_pairs. Proof. unfold tpc_pairs. pairs. Qed.

Lemma type_name_text : forall type ty, type_name type = Ok ty -> pairs_ok (value_pairs ty) /\ type_of_name ty = Ok type /\ ty <> ""%string /\ known_type type.
Proof.
  intros type ty H. unfold type_name in H. destruct (Z.eqb_spec type CARTESIAN) as [->|]; [injection H as <-|destruct (Z.eqb_spec type POLAR) as [->|]; [injection H as <-|discriminate]];
    (split; [unfold value_pairs; pairs|]); (split; [reflexivity|]); (split; [discriminate|]); [left | right]; reflexivity.
Qed.
Lemma known_name : forall type, known_type type -> exists ty, type_name type = Ok ty.
Proof. intros type [->| ->]; eexists; reflexivity. Qed.

(** the element a TPC is written to *)
Lemma tpc_element : forall w mp ps ty, type_name (getCoordinateType (w_tpc w)) = Ok ty -> sorted_params ps -> 
  tpc_toXML (mkTO w mp ps) = rmap (fun ms => XElem "detector" (attrs_of tpc_pairs) (tpc_fixed (w_tpc w) ty ms ++ all_elems ps))
    (rall (fun a => module_toXML (w_heap w a, mp a)) (getModules (w_tpc w))).
Proof.
  intros w mp ps ty T S. unfold tpc_toXML. cbn [to_world to_mpar to_par]. rewrite T. cbn [rbind].
  destruct (rall _ _) as [ms| |]; [|reflexivity..]. cbn [rbind rmap]. rewrite to_xml_elems by exact S. reflexivity.
Qed.
Lemma tpc_writable : forall t ty ms ps type, type_name type = Ok ty -> (forall x, In x ms -> writable x /\ is_elem x = true) ->
  sorted_params ps -> text_ok_params ps -> forall l, pairs_ok l -> writable (XElem "detector" (attrs_of l) (tpc_fixed t ty ms ++ all_elems ps)).
Proof.
  intros t ty ms ps type T M S X l L. apply det_writable; [reflexivity | exact L | exact S | exact X|].
  intros x [<-|[<-|[<-|[<-|[]]]]]; (split; [|reflexivity]); try (apply leaf_writable; [reflexivity | apply value_double_ok]).
  - apply leaf_writable; [reflexivity | apply (type_name_text _ _ T)].
  - apply node_writable; [reflexivity | apply no_pairs | exact M].
Qed.

(** reading it, with any attributes *)
Lemma tpc_read : forall at0 t ty ms ps type, type_name type = Ok ty -> sorted_params ps -> text_ok_params ps ->
  (forall x, In x ms -> is_elem x = true /\ Value x = "module"%string) ->
  tpc_fromXML (XElem "detector" at0 (tpc_fixed t ty ms ++ all_elems ps)) =
  rmap (fun b => mkTO (mkW (fst (fst b)) (snd (fst b))) (snd b) (back ps))
    (read_nodes type ms None 0 (new_tpc_obj (reread (getMaxDriftLength t)) type)).
Proof.
  intros at0 t ty ms ps type TN S T M. destruct (type_name_text _ _ TN) as [TP [TT [NE _]]].
  unfold tpc_fromXML, getChildElementValue, getOptionalChildElementValue. cbn [is_elem].
  rewrite !det_child by (assumption || discriminate). rewrite det_iterate by (assumption || discriminate).
  rewrite det_params; [|exact S | exact T | intros x [<-|[<-|[<-|[<-|[]]]]]; discriminate].
  change (FirstChildElement "maxDriftLength" (XElem "detector" at0 (tpc_fixed t ty ms))) with (Some (value_elem "maxDriftLength" (print_double (getMaxDriftLength t)))).
  change (FirstChildElement "coordinateType" (XElem "detector" at0 (tpc_fixed t ty ms))) with (Some (value_elem "coordinateType" ty)).
  change (IterateChildren "modules" (XElem "detector" at0 (tpc_fixed t ty ms))) with [XElem "modules" (attrs_of []) ms].
  unfold value_elem. rewrite (lookup "maxDriftLength" (value_pairs (print_double (getMaxDriftLength t)))) by apply value_double_ok.
  rewrite (lookup "coordinateType" (value_pairs ty)) by exact TP. cbn [value_pairs assoc String.eqb Ascii.eqb Bool.eqb rbind rmap].
  destruct (String.eqb_spec ty "") as [|_]; [contradiction|]. rewrite TT. cbn [rbind sections is_elem rfold].
  assert (RS : forall b, read_section type b (XElem "modules" (attrs_of []) ms) = read_nodes type ms None 0 b).
  { intros b. unfold read_section. change (getOptionalXMLAttribute (XElem "modules" (attrs_of []) ms) "moduleIDStartCount" "0") with "0"%string.
    change (atoi "0") with (Ok 0%Z). cbn [rbind children]. unfold FirstChildElement. cbn [children]. rewrite find_none_all; [reflexivity|].
    intros x X. destruct (M x X) as [_ ->]. reflexivity. }
  rewrite RS. destruct (read_nodes _ _ _ _ _) as [[[h t'] mp]| |]; reflexivity.
Qed.

(** ** The modules in turn *)
Definition addresses (k : nat) : list Z := map Z.of_nat (seq 0 k).
Lemma addresses_S : forall k, addresses (S k) = addresses k ++ [Z.of_nat k].
Proof. intros k. unfold addresses. rewrite seq_S, map_app. reflexivity. Qed.
Lemma addresses_in : forall k a, In a (addresses k) <-> (0 <= a < Z.of_nat k)%Z.
Proof.
  intros k a. unfold addresses. rewrite in_map_iff. split.
  - intros [i [<- I]]. apply in_seq in I. lia.
  - intros H. exists (Z.to_nat a). split; [lia|]. apply in_seq. lia.
Qed.
Lemma addresses_nth : forall k i, (i < k)%nat -> nth_error (addresses k) i = Some (Z.of_nat i).
Proof. intros k i I. unfold addresses. apply map_nth_error. rewrite nth_error_nth' with (d := 0%nat) by (rewrite seq_length; exact I). now rewrite seq_nth. Qed.
Lemma addresses_length : forall k, List.length (addresses k) = k.
Proof. intros. unfold addresses. now rewrite map_length, seq_length. Qed.

(** memory that agrees with [h] on the first [k] modules *)
Definition agrees (k : nat) (h h' : heap) : Prop := forall a, (0 <= a < Z.of_nat k)%Z -> h' a = h a.

(** the TPC after [k] modules have been read *)
Record loading (drift : R) (type : Z) (k : nat) (b : building) : Prop := mkLoading {
  ld_run : forall h, agrees k (fst (fst b)) h ->
    tpc_run (mkW h (new_tpc drift type)) (map (fun a => TAdd (Some a)) (addresses k)) = Some (mkW h (snd (fst b)));
  ld_mods : t_mods (snd (fst b)) = addresses k;
  ld_sides : forall a, In a (t_pos (snd (fst b))) \/ In a (t_neg (snd (fst b))) -> (0 <= a < Z.of_nat k)%Z;
  ld_type : t_type (snd (fst b)) = type; ld_drift : t_drift (snd (fst b)) = drift; ld_vel : t_vel (snd (fst b)) = 0 }.

Lemma loading_new : forall drift type, drift <> -1 -> known_type type -> loading drift type 0 (new_tpc_obj drift type).
Proof.
  intros drift type D T. unfold new_tpc_obj. assert (E : new_tpc drift type = mkT [] [] [] drift type 0 [] (mkE 0 0 0 0) 0).
  { unfold new_tpc. destruct (Reqb drift (-1)) eqn:R; [apply Reqb_true in R; contradiction|].
    destruct (Z.eqb_spec type (-1)) as [->|]; [destruct T as [T|T]; discriminate|]. reflexivity. }
  split; cbn [fst snd]; rewrite ?E; try reflexivity. intros a [[]|[]].
Qed.

Lemma cathode_agrees : forall h h' pos neg d o, (forall a, In a pos \/ In a neg -> h' a = h a) -> cathode h' pos neg d o = cathode h pos neg d o.
Proof.
  intros h h' pos neg d o H. unfold cathode. destruct neg as [|n neg], pos as [|p pos]; try reflexivity; rewrite ?H by (cbn; auto); reflexivity.
Qed.
Lemma add_agrees : forall h h' t a, h' a = h a -> (forall x, In x (t_pos t) \/ In x (t_neg t) -> h' x = h x) ->
  addModule h' t (Some a) = addModule h t (Some a).
Proof.
  intros h h' t a A H. unfold addModule. rewrite A. cbv zeta.
  destruct (negb _); [reflexivity|]. destruct (id_find _ _); [reflexivity|]. destruct (getZPosition (h a)) as [z|]; [|reflexivity].
  rewrite (cathode_agrees h h'); [reflexivity|]. intros x X.
  destruct (Rleb z 0); rewrite ?in_app_iff in X; destruct X as [X|X]; rewrite ?in_app_iff in X;
    repeat match goal with X : _ \/ _ |- _ => destruct X as [X|X] end; try (apply H; tauto); destruct X as [<-|[]]; exact A.
Qed.
Lemma tpc_run_app : forall c w d, tpc_run w (c ++ d) = match tpc_run w c with Some w' => tpc_run w' d | None => None end.
Proof. induction c as [|x c IH]; intros w d; [reflexivity|]. cbn. destruct (after (call_tpc w x)); [apply IH | reflexivity]. Qed.

(** one more module *)
Lemma loading_add : forall drift type k h t mp m ps, loading drift type k (h, t, mp) -> getTPCCoordinateType m = type ->
  (forall a, (0 <= a < Z.of_nat k)%Z -> getModuleID (h a) <> getModuleID m) ->
  let h' := heap_set h (Z.of_nat k) m in
  exists t', addModule h' t (Some (Z.of_nat k)) = SOk t' tt /\
    loading drift type (S k) (h', t', fun x => if (x =? Z.of_nat k)%Z then ps else mp x).
Proof.
  intros drift type k h t mp m ps L T D h'. pose proof L as [R M SD TY DR VE]. cbn [fst snd] in *.
  assert (AG : agrees k h h') by (intros a A; unfold h', heap_set; destruct (Z.eqb_spec a (Z.of_nat k)); [lia | reflexivity]).
  assert (HK : h' (Z.of_nat k) = m) by (unfold h', heap_set; rewrite Z.eqb_refl; reflexivity).
  assert (B : book (mkW h' t)).
  { apply reached_book. exists drift, type, h', (map (fun a => TAdd (Some a)) (addresses k)). apply R. exact AG. }
  destruct (add_accepted (mkW h' t) (Z.of_nat k) B) as [t' [E [E1 [E2 [E3 [E4 [E5 [E6 [E7 [E8 E9]]]]]]]]]].
  { split; cbn [w_heap w_tpc].
    - rewrite HK. unfold getCoordinateType. congruence.
    - intros b I. unfold getModules in I. rewrite M in I. apply addresses_in in I. rewrite AG, HK by exact I. apply D. exact I. }
  cbn [w_heap w_tpc] in *. exists t'. split; [exact E|]. split; cbn [fst snd].
  - intros g G. rewrite addresses_S, map_app, tpc_run_app, R.
    + cbn [map tpc_run call_tpc w_heap w_tpc]. rewrite (add_agrees h' g), E; [reflexivity | apply G; lia|].
      intros x X. apply G. specialize (SD x X). lia.
    + intros a A. rewrite G by lia. apply AG. exact A.
  - rewrite E1, M. symmetry. apply addresses_S.
  - intros a. rewrite E7, E8, !in_app_iff. intros [[A|A]|[A|A]]; try (assert (0 <= a < Z.of_nat k)%Z by (apply SD; tauto); lia);
      apply filter_In in A; destruct A as [[<-|[]] _]; lia.
  - congruence.
  - congruence.
  - congruence.
Qed.

(** ** What is read for one module *)
Lemma rfold_calls : forall cs m m', call_all m cs = Some m' -> (forall pre c post x, cs = pre ++ c :: post -> call_all m pre = Some x -> exists y, call_module x c = SOk y tt) ->
  rfold call_ok cs m = Ok m'.
Proof.
  induction cs as [|c cs IH]; intros m m' H S; cbn in *; [congruence|]. destruct (S [] c cs m eq_refl eq_refl) as [y Y].
  unfold call_ok at 1. rewrite Y in *. cbn [outcome rbind]. apply IH; [exact H|]. intros pre d post x E P. apply (S (c :: pre) d post x); [now rewrite E|].
  cbn. rewrite Y. exact P.
Qed.
Lemma placing_borders : forall m pre c post, placing m = pre ++ c :: post -> last_border (pre ++ [c]) = 0 \/ last_border (pre ++ [c]) = reread (getBorderWidth m).
Proof.
  intros m pre c post E. unfold placing in E.
  assert (G : forall l, (exists post, placing m = l ++ post) -> last_border l = 0 \/ last_border l = reread (getBorderWidth m)).
  { intros l [q Q]. unfold placing in Q. destruct (getZPosition m) as [z|]; cbn [app] in Q.
    - destruct l as [|? [|? [|? [|? [|? l]]]]]; cbn in Q; try (left; reflexivity); injection Q; intros; subst; cbn; auto; discriminate.
    - destruct l as [|? [|? [|? [|? l]]]]; cbn in Q; try (left; reflexivity); injection Q; intros; subst; cbn; auto; discriminate. }
  apply G. exists post. unfold placing. rewrite E, <- app_assoc. reflexivity.
Qed.
Lemma last_border_placing : forall m, last_border (placing m) = reread (getBorderWidth m).
Proof. intros m. unfold placing. destruct (getZPosition m); reflexivity. Qed.

Lemma placed : forall m q type f, known_type type -> mountable type q (reread (getBorderWidth m)) ->
  exists m', rfold call_ok (placing m) (new_module (getModuleID m) q type f) = Ok m' /\
    module_made (getModuleID m) q type f (placing m) m'.
Proof.
  intros m q type f K [M1 M2].
  destruct (history_exists (getModuleID m) q type f (placing m) K M1) as [m' H].
  { intros L. destruct (M2 L) as [A B]. split; [exact A|]. intros b I. unfold placing in I. destruct (getZPosition m); cbn in I;
      repeat (destruct I as [I|I]; [try discriminate; injection I as <-; exact B|]); destruct I. }
  exists m'. split; [|exact H]. apply rfold_calls; [apply H|]. intros pre c post x E P.
  apply (calls_succeed (getModuleID m) q type f pre x c).
  - split; [exact K | exact P].
  - exact M1.
  - intros L. destruct (M2 L) as [A B]. split; [exact A|]. destruct (placing_borders m pre c post E) as [-> | ->]; [lra | exact B].
Qed.

Lemma module_comes_back : forall m ps lay id, sorted_params ps -> text_ok_params ps -> lay_toXML (m_layout m) = Ok lay ->
  module_saved m -> known_type (getTPCCoordinateType m) ->
  exists m', module_fromXML (module_elem m ps lay) None (getTPCCoordinateType m) id = Ok (m', back ps) /\
    getModuleID m' = getModuleID m /\ getTPCCoordinateType m' = getTPCCoordinateType m /\ module_back m ps m' (back ps).
Proof.
  intros m ps lay id S T L [I [q [Q M]]] K. destruct (lay_element _ _ L) as [_ [E V]].
  destruct (first_digit (TpcModuleModel.getReadoutFrequency m)) as [k [A [KB KI]]].
  destruct (placed m q (getTPCCoordinateType m) (IZR k) K M) as [m' [R H]]. exists m'.
  unfold layout_back in Q. rewrite reload_lay, L in Q. cbn [rbind] in Q.
  rewrite (module_read m ps lay _ _ k), Q by assumption. cbn [rbind]. rewrite R. split; [reflexivity|].
  destruct (module_getters _ _ _ _ _ _ H) as [G1 [G2 _]]. split; [exact G1|]. split; [exact G2|].
  exists q, (IZR k). split; [unfold layout_back; rewrite reload_lay, L; exact Q|].
  split; [exists k; split; [exact KB | reflexivity]|]. split; [exact KI|]. split; [exact H|]. apply save_load; assumption.
Qed.

(** ** The list of modules *)
Section Reading.
Variables (h0 : heap) (mp0 : Z -> params) (drift : R) (type : Z).
Hypothesis K : known_type type.
Definition good_module (a : Z) : Prop :=
  module_saved (h0 a) /\ getTPCCoordinateType (h0 a) = type /\ sorted_params (mp0 a) /\ text_ok_params (mp0 a).
Definition written_as (a : Z) (x : xnode) : Prop := exists lay, lay_toXML (m_layout (h0 a)) = Ok lay /\ x = module_elem (h0 a) (mp0 a) lay.

Lemma read_modules : forall A ms, Forall2 written_as A ms -> forall k b, loading drift type k b ->
  (forall a, In a A -> good_module a) -> NoDup (map (idof h0) A) ->
  (forall a x, In a A -> (0 <= x < Z.of_nat k)%Z -> getModuleID (fst (fst b) x) <> getModuleID (h0 a)) ->
  (Z.of_nat k + Z.of_nat (List.length A) < 2147483648)%Z ->
  exists b', read_nodes type ms None (Z.of_nat k) b = Ok b' /\ loading drift type (k + List.length A) b' /\
    (forall x, (0 <= x < Z.of_nat k)%Z -> fst (fst b') x = fst (fst b) x /\ snd b' x = snd b x) /\
    forall i a, nth_error A i = Some a -> module_back (h0 a) (mp0 a) (fst (fst b') (Z.of_nat (k + i))) (snd b' (Z.of_nat (k + i))).
Proof.
  induction 1 as [|a x A ms W F IH]; intros k b L G ND NI B.
  - exists b. split; [reflexivity|]. split; [rewrite Nat.add_0_r; exact L|]. split; [auto|]. intros i a E. destruct i; discriminate.
  - destruct W as [lay [LW ->]]. destruct (G a (or_introl eq_refl)) as [MS [TA [SP TP]]].
    destruct (module_comes_back (h0 a) (mp0 a) lay (Z.of_nat k) SP TP LW MS) as [m' [R [ID [TY MB]]]]; [rewrite TA; exact K|].
    destruct b as [[h t] mp]. cbn [fst snd] in *.
    destruct (loading_add drift type k h t mp m' (back (mp0 a)) L) as [t' [AD L']]; [congruence | intros y Y; rewrite ID; apply NI; [left; reflexivity | exact Y]|].
    set (b1 := (heap_set h (Z.of_nat k) m', t', fun y => if (y =? Z.of_nat k)%Z then back (mp0 a) else mp y)) in *.
    assert (RM : read_module type (h, t, mp) (module_elem (h0 a) (mp0 a) lay) None (Z.of_nat k) = Ok b1).
    { unfold read_module. cbn [List.length] in B.
      assert (X : ((-2147483648 <=? Z.of_nat k) && (Z.of_nat k <=? 2147483647) = true)%Z%bool) by (apply andb_true_iff; rewrite !Z.leb_le; lia).
      rewrite X. rewrite <- TA. rewrite R. cbn [rbind fst snd]. unfold next_address.
      pose proof (ld_mods _ _ _ _ L) as LM. cbn [fst snd] in LM. rewrite LM, addresses_length, AD. reflexivity. }
    cbn [map] in ND. apply NoDup_cons_iff in ND. destruct ND as [ND1 ND2].
    destruct (IH (S k) b1 L') as [b' [R' [L2 [SM MB']]]].
    + intros a' I. apply G. right. exact I.
    + exact ND2.
    + intros a' y I Y. unfold b1. cbn [fst]. unfold heap_set. destruct (Z.eqb_spec y (Z.of_nat k)) as [->|NE].
      * rewrite ID. intros EQ. apply ND1. unfold idof in *. rewrite EQ. apply in_map_iff. exists a'. split; [reflexivity | exact I].
      * apply NI; [right; exact I | lia].
    + cbn [List.length] in B. lia.
    + exists b'. split; [|split; [|split]].
      * cbn [read_nodes]. change (is_elem (module_elem (h0 a) (mp0 a) lay)) with true. change (Value (module_elem (h0 a) (mp0 a) lay)) with "module"%string.
        cbn [negb String.eqb Ascii.eqb Bool.eqb]. rewrite RM. cbn [rbind]. replace (Z.of_nat k + 1)%Z with (Z.of_nat (S k)) by lia. exact R'.
      * cbn [List.length]. rewrite <- Nat.add_succ_comm. exact L2.
      * intros y Y. destruct (SM y ltac:(lia)) as [-> ->]. unfold b1. cbn [fst snd]. unfold heap_set. destruct (Z.eqb_spec y (Z.of_nat k)); [lia|]. split; reflexivity.
      * intros [|i] a' E; cbn in E.
        -- injection E as <-. rewrite Nat.add_0_r. destruct (SM (Z.of_nat k) ltac:(lia)) as [-> ->]. unfold b1. cbn [fst snd]. unfold heap_set. rewrite Z.eqb_refl. exact MB.
        -- rewrite <- Nat.add_succ_comm. apply MB'. exact E.
Qed.
End Reading.

Lemma rall_forall2 : forall {A B} (f : A -> result B) l ys, rall f l = Ok ys -> Forall2 (fun x y => f x = Ok y) l ys.
Proof.
  intros A B f. induction l as [|x l IH]; intros ys H; cbn in H; [injection H as <-; constructor|].
  destruct (f x) as [y| |] eqn:E; try discriminate. cbn in H. destruct (rall f l) as [ys'| |]; try discriminate. cbn in H. injection H as <-.
  constructor; [exact E | apply IH; reflexivity].
Qed.
Lemma rall_exists : forall {A B} (f : A -> result B) l, (forall x, In x l -> exists y, f x = Ok y) -> exists ys, rall f l = Ok ys.
Proof.
  intros A B f. induction l as [|x l IH]; intros H; [eexists; reflexivity|]. destruct (H x (or_introl eq_refl)) as [y Y].
  destruct IH as [ys YS]; [intros z Z; apply H; right; exact Z|]. exists (y :: ys). cbn. rewrite Y, YS. reflexivity.
Qed.

Lemma forall2_mono : forall {A B} (P Q : A -> B -> Prop) l m, (forall a b, P a b -> Q a b) -> Forall2 P l m -> Forall2 Q l m.
Proof. intros A B P Q l m H F. induction F; constructor; auto. Qed.

(** ** user level *)
Lemma tpc_comes_back : forall w mp hp, tpc_reached w -> let t := w_tpc w in
  known_type (getCoordinateType t) -> reread (getMaxDriftLength t) <> -1 -> storable (ParamsSpec.after hp) ->
  (getNModules t < 2147483648)%Z ->
  (forall a, In a (getModules t) -> module_saved (w_heap w a) /\ storable (ParamsSpec.after (mp a))) ->
  exists w' mp' ps', reload tpc_toXML tpc_fromXML (mkTO w (fun a => ParamsSpec.after (mp a)) (ParamsSpec.after hp)) = Ok (mkTO w' mp' ps') /\
    tpc_reached w' /\ let t' := w_tpc w' in
    getNModules t' = getNModules t /\ getCoordinateType t' = getCoordinateType t /\
    getMaxDriftLength t' = reread (getMaxDriftLength t) /\ getDriftVelocity t' = 0 /\ came_back (ParamsSpec.after hp) ps' /\
    forall i a, nth_error (getModules t) i = Some a -> exists a', nth_error (getModules t') i = Some a' /\
      module_back (w_heap w a) (ParamsSpec.after (mp a)) (w_heap w' a') (mp' a').
Proof.
  intros w mp hp RW t KT D SP N G. pose proof (reached_book w RW) as [_ BT BD].
  destruct (known_name _ KT) as [ty TN].
  assert (GM : forall a, In a (getModules t) -> good_module (w_heap w) (fun a => ParamsSpec.after (mp a)) (getCoordinateType t) a).
  { intros a I. destruct (G a I) as [MS ST]. split; [exact MS|]. split; [apply BT; exact I|]. split; [apply after_sorted | apply storable_text; exact ST]. }
  set (write := fun a => module_toXML (w_heap w a, ParamsSpec.after (mp a))).
  destruct (rall_exists write (getModules t)) as [ms MS].
  { intros a I. destruct (G a I) as [[_ [q [Q _]]] _]. unfold write. rewrite module_element by apply after_sorted. unfold layout_back in Q. rewrite reload_lay in Q.
    destruct (lay_toXML (m_layout (w_heap w a))); try discriminate. eexists. reflexivity. }
  assert (FW : Forall2 (written_as (w_heap w) (fun a => ParamsSpec.after (mp a))) (getModules t) ms).
  { apply rall_forall2 in MS. eapply forall2_mono; [|exact MS]. intros a x H. cbv beta in H. unfold write in H. rewrite module_element in H by apply after_sorted.
    destruct (lay_toXML (m_layout (w_heap w a))) as [lay| |] eqn:E; try discriminate. cbn in H. injection H as <-. exists lay. split; [exact E | reflexivity]. }
  assert (MI : forall x, In x ms -> writable x /\ is_elem x = true /\ Value x = "module"%string).
  { intros x I. clear -FW I G. induction FW as [|a y A ms [lay [L ->]] F IH]; [destruct I|]. destruct I as [<-|I].
    - destruct (lay_element _ _ L) as [W [E V]]. destruct (G a (or_introl eq_refl)) as [_ ST].
      destruct (module_writable (w_heap w a) (ParamsSpec.after (mp a)) lay (after_sorted _) (storable_text _ ST) W E V) as [W1 E1].
      split; [exact W1|]. split; [exact E1 | reflexivity].
    - apply IH; [intros b B; apply G; right; exact B | exact I]. }
  destruct (read_modules (w_heap w) (fun a => ParamsSpec.after (mp a)) (reread (getMaxDriftLength t)) (getCoordinateType t) KT (getModules t) ms FW 0
    (new_tpc_obj (reread (getMaxDriftLength t)) (getCoordinateType t)) (loading_new _ _ D KT) GM BD ltac:(intros; lia) ltac:(unfold getNModules in N; cbn; fold (getModules t) in N; lia))
    as [[[h' t'] mp'] [R [L [_ MB]]]].
  cbn [fst snd] in *. exists (mkW h' t'), mp', (back (ParamsSpec.after hp)). pose proof L as [LR LM _ LT LD LV]. cbn [fst snd] in *.
  split; [|split].
  - unfold reload. rewrite (tpc_element _ _ _ ty TN) by apply after_sorted. fold t. fold write. rewrite MS. cbn [rmap rbind].
    rewrite via_writable; [|eapply tpc_writable; [exact TN | | apply after_sorted | apply storable_text; exact SP | apply tpc_pairs_ok] | reflexivity].
    + cbn [rbind]. rewrite (tpc_read _ _ _ _ _ _ TN); [|apply after_sorted | apply storable_text; exact SP | intros x X; split; apply (MI x X)].
      change 0%Z with (Z.of_nat 0). fold t. rewrite R. reflexivity.
    + intros x X. split; apply (MI x X).
  - exists (reread (getMaxDriftLength t)), (getCoordinateType t), h', (map (fun a => TAdd (Some a)) (addresses (0 + List.length (getModules t)))).
    apply LR. intros a _. reflexivity.
  - cbn [w_tpc w_heap]. unfold getNModules, getCoordinateType, getMaxDriftLength, getDriftVelocity, getModules in *. fold t in LD. 
    split; [rewrite LM, addresses_length; reflexivity|]. split; [exact LT|]. split; [exact LD|]. split; [exact LV|].
    split; [apply save_load; [apply after_sorted | apply storable_text; exact SP]|].
    intros i a E. exists (Z.of_nat i). split.
    + rewrite LM. apply addresses_nth. apply nth_error_Some. cbn. congruence.
    + apply MB. exact E.
Qed.
