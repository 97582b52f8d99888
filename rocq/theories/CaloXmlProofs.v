From Coq Require Import ZArith List String Ascii Bool Reals Lia Lra Sorting.Sorted.
From Verif Require Import Base BaseProofs RBase XmlModel XmlSpec XmlProofs XmlProofs2 XmlProofs3 NumModel NumSpec NumProofs HxModel HxSpec HxProofs
  ParamsModel ParamsSpec ParamsProofs ParXmlModel ParXmlSpec ParXmlProofs CaloModel CaloSpec CaloProofs CaloXmlModel CaloXmlSpec.
Import ListNotations.
Open Scope list_scope.
Open Scope R_scope.


(** ** Runs of equal layers *)
Definition back_layer (d : R) (l : layer) : layer :=
  mkLayer d (atof (print_double (L_Thickness l))) (atof (print_double (L_AbsorberThickness l)))
    (atof (print_double (L_CellSize0 l))) (atof (print_double (L_CellSize1 l))).

(** every layer takes the values of the last one of its run *)
Fixpoint merged (v : layout) : layout :=
  match v with
  | [] => []
  | l :: r => match r with
              | [] => [l]
              | m :: _ => if same_layer l m then match merged r with x :: _ => x :: merged r | [] => [] end
                          else l :: merged r
              end
  end.

(** placed one behind the other *)
Fixpoint placed (pos : R) (v : layout) : layout :=
  match v with
  | [] => []
  | l :: r => back_layer pos l :: placed (pos + atof (print_double (L_Thickness l))) r
  end.

Lemma merged_length : forall v, List.length (merged v) = List.length v.
Proof.
  induction v as [|l v IH]; [reflexivity|]. destruct v as [|m v]; [reflexivity|].
  change (merged (l :: m :: v)) with (if same_layer l m then match merged (m :: v) with x :: _ => x :: merged (m :: v) | [] => [] end else l :: merged (m :: v)).
  cbn [List.length] in IH. destruct (same_layer l m).
  - destruct (merged (m :: v)) as [|x w]; [discriminate|]. cbn [List.length] in *. lia.
  - cbn [List.length]. lia.
Qed.

Lemma placed_length : forall v pos, List.length (placed pos v) = List.length v.
Proof. induction v as [|l v IH]; intros pos; [reflexivity|]. cbn. rewrite IH. reflexivity. Qed.

(** ** Reading the layers *)
Lemma layer_pairs : forall n l, pairs_ok
    [("repeat", print_int n); ("thickness", print_double (L_Thickness l));
     ("absorberThickness", print_double (L_AbsorberThickness l));
     ("cellSize0", print_double (L_CellSize0 l)); ("cellSize1", print_double (L_CellSize1 l))]%string.
Proof.
  intros n l. split; [reflexivity|]. split; [reflexivity|].
  intros v I. cbn in I. destruct I as [<-|[<-|[<-|[<-|[<-|[]]]]]]; first [apply print_int_clean | apply print_double_clean].
Qed.


Lemma read_layer_elem : forall first v n l, is_int n ->
  read_layer first v (layer_elem n l) = Ok (add_layers (Z.to_nat n) first (atof (print_double (L_Thickness l))) (atof (print_double (L_AbsorberThickness l)))
    (atof (print_double (L_CellSize0 l))) (atof (print_double (L_CellSize1 l))) v).
Proof.
  intros first v n l N. unfold read_layer, layer_elem. pose proof (layer_pairs n l) as P.
  rewrite (get_int_attr _ _ _ "repeat" n P) by (cbn; tauto). cbn [rbind].
  rewrite (get_double_attr _ _ _ "thickness" (L_Thickness l) P) by (cbn; tauto). cbn [rbind].
  rewrite (get_double_attr _ _ _ "absorberThickness" (L_AbsorberThickness l) P) by (cbn; tauto). cbn [rbind].
  rewrite (get_double_attr _ _ _ "cellSize0" (L_CellSize0 l) P) by (cbn; tauto). cbn [rbind].
  rewrite (get_double_attr _ _ _ "cellSize1" (L_CellSize1 l) P) by (cbn; tauto). reflexivity.
Qed.

(** where the next layer goes *)
Definition next_at (first : R) (v : layout) : R := match v with [] => first | _ => next_pos v end.

Lemma next_at_snoc : forall first v l, next_at first (v ++ [l]) = L_Distance l + L_Thickness l.
Proof.
  intros first v l. unfold next_at. destruct (v ++ [l])%list eqn:E; [destruct v; discriminate|]. rewrite <- E.
  unfold next_pos. rewrite back_snoc. reflexivity.
Qed.

Lemma add_layers_placed : forall n first l v,
  add_layers n first (atof (print_double (L_Thickness l))) (atof (print_double (L_AbsorberThickness l)))
    (atof (print_double (L_CellSize0 l))) (atof (print_double (L_CellSize1 l))) v =
  (v ++ placed (next_at first v) (repeat l n))%list.
Proof.
  induction n as [|n IH]; intros first l v; cbn [add_layers repeat placed]; [rewrite app_nil_r; reflexivity|].
  assert (E : match v with
    | [] => positionLayer v first (atof (print_double (L_Thickness l))) (atof (print_double (L_CellSize0 l))) (atof (print_double (L_CellSize1 l))) (atof (print_double (L_AbsorberThickness l)))
    | _ => addLayer v (atof (print_double (L_Thickness l))) (atof (print_double (L_CellSize0 l))) (atof (print_double (L_CellSize1 l))) (atof (print_double (L_AbsorberThickness l)))
    end = (v ++ [back_layer (next_at first v) l])%list).
  { destruct v as [|x v]; [reflexivity|]. unfold addLayer, next_at, next_pos, back_layer. destruct (back_ (x :: v)) eqn:B; reflexivity. }
  rewrite E, IH, next_at_snoc. rewrite <- app_assoc. reflexivity.
Qed.

Lemma placed_app : forall a b pos, placed pos (a ++ b) = (placed pos a ++ placed (next_at pos (placed pos a)) b)%list.
Proof.
  assert (N : forall a pos x l, next_at x (placed pos (a ++ [l])) = next_at x (placed pos (a ++ [l]))) by reflexivity.
  induction a as [|l a IH]; intros b pos; [reflexivity|].
  cbn [app placed]. rewrite IH. f_equal. f_equal. f_equal.
  set (p1 := pos + atof (print_double (L_Thickness l))). unfold next_at at 2.
  destruct (placed p1 a) as [|y w] eqn:E.
  - reflexivity.
  - unfold next_at, next_pos, back_. cbn [List.length Nat.sub]. rewrite !Nat.sub_0_r. reflexivity.
Qed.

Lemma next_at_app : forall f a b, next_at f (a ++ b) = next_at (next_at f a) b.
Proof.
  intros f a b. destruct b as [|x b] using rev_ind; [rewrite app_nil_r; reflexivity|].
  rewrite app_assoc, !next_at_snoc. reflexivity.
Qed.

Definition head_of (cur : layer) (v : layout) : layer := hd cur (merged (cur :: v)).

Lemma merged_same : forall l m r, same_layer l m = true -> merged (l :: m :: r) = head_of m r :: merged (m :: r).
Proof.
  intros l m r S.
  change (merged (l :: m :: r)) with (if same_layer l m then match merged (m :: r) with x :: _ => x :: merged (m :: r) | [] => [] end else l :: merged (m :: r)).
  rewrite S. unfold head_of. pose proof (merged_length (m :: r)) as L. destruct (merged (m :: r)); [discriminate|]. reflexivity.
Qed.
Lemma merged_other : forall l m r, same_layer l m = false -> merged (l :: m :: r) = l :: merged (m :: r).
Proof.
  intros l m r S.
  change (merged (l :: m :: r)) with (if same_layer l m then match merged (m :: r) with x :: _ => x :: merged (m :: r) | [] => [] end else l :: merged (m :: r)).
  rewrite S. reflexivity.
Qed.

Lemma repeat_snoc : forall {A} (x : A) n, (repeat x n ++ [x])%list = repeat x (S n).
Proof. intros A x n. induction n as [|n IH]; [reflexivity|]. cbn in *. rewrite IH. reflexivity. Qed.

Lemma read_layers_run : forall v first cur rep acc, (1 <= rep)%Z -> (rep + Z.of_nat (List.length v) < 2147483648)%Z ->
  rfold (read_layer first) (layer_elems cur rep v) acc =
  Ok (acc ++ placed (next_at first acc) (repeat (head_of cur v) (Z.to_nat rep - 1) ++ merged (cur :: v)))%list.
Proof.
  induction v as [|l v IH]; intros first cur rep acc R1 R2.
  - cbn [layer_elems]. destruct (Z.ltb_spec 0 rep); [|lia]. cbn [rfold]. rewrite read_layer_elem by (unfold is_int; cbn [List.length] in R2; lia).
    cbn [rbind]. rewrite add_layers_placed. f_equal. f_equal. f_equal. cbn [merged]. unfold head_of. cbn [merged hd].
    rewrite repeat_snoc. f_equal. lia.
  - cbn [List.length] in R2. rewrite Nat2Z.inj_succ in R2. cbn [layer_elems]. destruct (Z.ltb_spec 0 rep); [|lia]. rewrite andb_true_r.
    destruct (same_layer cur l) eqn:SM; cbn [negb].
    + rewrite IH by lia. f_equal. f_equal. f_equal. unfold head_of at 2. rewrite merged_same by exact SM. cbn [hd].
      replace (Z.to_nat (rep + 1) - 1)%nat with (S (Z.to_nat rep - 1)) by lia.
      rewrite <- repeat_snoc, <- app_assoc. reflexivity.
    + cbn [rfold]. rewrite read_layer_elem by (unfold is_int; lia). cbn [rbind]. rewrite add_layers_placed. rewrite IH by lia.
      f_equal. change (Z.to_nat 1 - 1)%nat with 0%nat. cbn [repeat app]. rewrite next_at_app. rewrite <- app_assoc. f_equal.
      unfold head_of. rewrite merged_other by exact SM. cbn [hd].
      change (repeat cur (Z.to_nat rep - 1) ++ cur :: merged (l :: v))%list with (repeat cur (Z.to_nat rep - 1) ++ [cur] ++ merged (l :: v))%list.
      rewrite app_assoc, repeat_snoc. replace (S (Z.to_nat rep - 1)) with (Z.to_nat rep) by lia. rewrite placed_app. reflexivity.
Qed.

Lemma read_layers : forall v first, (Z.of_nat (List.length v) < 2147483648)%Z ->
  rfold (read_layer first) (layer_elems (mkLayer 0 0 0 0 0) 0 v) [] = Ok (placed first (merged v)).
Proof.
  intros [|l v] first H; [reflexivity|]. cbn [layer_elems]. change (0 <? 0)%Z with false. rewrite andb_false_r.
  cbn [List.length] in H. rewrite Nat2Z.inj_succ in H. change (0 + 1)%Z with 1%Z. rewrite read_layers_run by lia. reflexivity.
Qed.

Lemma layer_elems_in : forall v cur rep x, In x (layer_elems cur rep v) -> exists n l, x = layer_elem n l.
Proof.
  induction v as [|l v IH]; intros cur rep x I; cbn [layer_elems] in I.
  - destruct (0 <? rep)%Z; [|destruct I]. destruct I as [<-|[]]. eauto.
  - destruct (negb (same_layer cur l) && (0 <? rep)%Z); [destruct I as [<-|I]; [eauto|]|]; eapply IH; exact I.
Qed.

Lemma layer_elem_writable : forall n l, writable (layer_elem n l).
Proof. intros n l. apply elem_writable; [reflexivity | apply layer_pairs | intros x [] | exact I]. Qed.

(** ** The whole element *)

Definition head_nodes (c : calo) (ext : list R) : list xnode := match calo_head c ext with Ok h => h | _ => [] end.

Lemma calo_element : forall c p ext c1, sorted_params p -> getExtent c = SOk c1 ext -> List.length ext = 4%nat ->
  calo_toXML (c, p) = Ok (XElem "detector" [] (head_nodes c ext ++ layer_elems (mkLayer 0 0 0 0 0) 0 (c_layout c) ++ all_elems p)).
Proof.
  intros c p ext c1 S E L. unfold calo_toXML. rewrite E. unfold head_nodes. unfold calo_head. rewrite L. cbn [Nat.eqb rbind].
  rewrite to_xml_elems by exact S. reflexivity.
Qed.

Definition layout_pairs (c : calo) : list (string * string) :=
  [("type", match c_type c with BARREL => "Barrel" | ENDCAP => "Endcap" end); ("symmetry", print_int (c_sym c)); ("phi0", print_double (c_phi c))]%string.
Definition dims_pairs (c : calo) (a b z1 z2 : R) : list (string * string) :=
  match c_type c with
  | BARREL => [("inner_r", print_double a); ("outer_z", print_double z2)]
  | ENDCAP => [("inner_r", print_double a); ("outer_r", print_double b); ("inner_z", print_double z1)]
  end%string.

Lemma head_nodes_eq : forall c a b z1 z2, head_nodes c [a; b; z1; z2] =
  [XElem "layout" (attrs_of (layout_pairs c)) []; XElem "dimensions" (attrs_of (dims_pairs c a b z1 z2)) []]%string.
Proof. intros c a b z1 z2. unfold head_nodes, calo_head, layout_pairs, dims_pairs. cbn [List.length Nat.eqb nth]. destruct (c_type c); reflexivity. Qed.

Lemma layout_pairs_ok : forall c, pairs_ok (layout_pairs c).
Proof.
  intros c. split; [reflexivity|]. split; [reflexivity|]. intros v I. cbn in I. destruct I as [<-|[<-|[<-|[]]]].
  - destruct (c_type c); apply plain_clean; reflexivity.
  - apply print_int_clean.
  - apply print_double_clean.
Qed.
Lemma dims_pairs_ok : forall c a b z1 z2, pairs_ok (dims_pairs c a b z1 z2).
Proof.
  intros c a b z1 z2. unfold dims_pairs. destruct (c_type c); (split; [reflexivity|]); (split; [reflexivity|]); intros v I; cbn in I;
  repeat (destruct I as [<-|I]; [apply print_double_clean|]); destruct I.
Qed.

Lemma calo_writable : forall c p a b z1 z2, sorted_params p -> text_ok_params p ->
  writable (XElem "detector" [] (head_nodes c [a; b; z1; z2] ++ layer_elems (mkLayer 0 0 0 0 0) 0 (c_layout c) ++ all_elems p)).
Proof.
  intros c p a b z1 z2 S T. rewrite head_nodes_eq.
  assert (H : forall x, In x ([XElem "layout" (attrs_of (layout_pairs c)) []; XElem "dimensions" (attrs_of (dims_pairs c a b z1 z2)) []]%string
    ++ layer_elems (mkLayer 0 0 0 0 0) 0 (c_layout c) ++ all_elems p) -> writable x /\ is_elem x = true).
  { intros x I. apply in_app_or in I. destruct I as [[<-|[<-|[]]]|I].
    - split; [|reflexivity]. apply elem_writable; [reflexivity | apply layout_pairs_ok | intros x [] | exact I].
    - split; [|reflexivity]. apply elem_writable; [reflexivity | apply dims_pairs_ok | intros x [] | exact I].
    - apply in_app_or in I. destruct I as [I|I].
      + destruct (layer_elems_in _ _ _ _ I) as [n [l ->]]. split; [apply layer_elem_writable | reflexivity].
      + destruct (all_elems_in p x S T I) as [W [E _]]. split; assumption. }
  apply (elem_writable "detector" []); [reflexivity | | |].
  - split; [reflexivity|]. split; [reflexivity|]. intros v [].
  - intros x I. apply H. exact I.
  - apply elements_no_text. intros x I. apply H. exact I.
Qed.

(** what comes back *)
Definition base_calo (c : calo) (a b z1 z2 : R) : calo * R :=
  let d x := atof (print_double x) in
  match c_type c with
  | BARREL => (new_barrel (d a) (d z2) (c_sym c) (d (c_phi c)), d a)
  | ENDCAP => (new_endcap (d a) (d b) (d z1) (c_sym c) (d (c_phi c)), d z1)
  end.

Lemma calo_read : forall c p a b z1 z2, sorted_params p -> text_ok_params p -> is_int (c_sym c) ->
  (Z.of_nat (List.length (c_layout c)) < 2147483648)%Z ->
  calo_fromXML (XElem "detector" [] (head_nodes c [a; b; z1; z2] ++ layer_elems (mkLayer 0 0 0 0 0) 0 (c_layout c) ++ all_elems p)) =
  Ok (set_layout (fst (base_calo c a b z1 z2)) (placed (snd (base_calo c a b z1 z2)) (merged (c_layout c))), back p).
Proof.
  intros c p a b z1 z2 S T Y N. rewrite head_nodes_eq.
  set (LE := layer_elems (mkLayer 0 0 0 0 0) 0 (c_layout c)).
  set (lay := XElem "layout" (attrs_of (layout_pairs c)) []). set (dim := XElem "dimensions" (attrs_of (dims_pairs c a b z1 z2)) []).
  set (n := XElem "detector" [] ([lay; dim] ++ LE ++ all_elems p)).
  assert (F1 : FirstChildElement "layout" n = Some lay) by reflexivity.
  assert (F2 : FirstChildElement "dimensions" n = Some dim) by reflexivity.
  assert (I1 : IterateChildren "parameter" n = all_elems p).
  { unfold IterateChildren, n. cbn [children]. rewrite !filter_app. cbn [filter Value lay dim].
    change (String.eqb "layout" "parameter") with false. change (String.eqb "dimensions" "parameter") with false. cbv iota. cbn [app].
    rewrite (filter_none _ LE) by (intros x I; destruct (layer_elems_in _ _ _ _ I) as [k [l ->]]; reflexivity).
    cbn [app]. apply filter_all. intros x I. destruct (all_elems_in p x S T I) as [_ [_ V]]. rewrite V. reflexivity. }
  assert (I2 : IterateChildren "layer" n = LE).
  { unfold IterateChildren, n. cbn [children]. rewrite !filter_app. cbn [filter Value lay dim].
    change (String.eqb "layout" "layer") with false. change (String.eqb "dimensions" "layer") with false. cbv iota. cbn [app].
    rewrite (filter_all _ LE) by (intros x I; destruct (layer_elems_in _ _ _ _ I) as [k [l ->]]; reflexivity).
    rewrite filter_none; [apply app_nil_r|]. intros x I. destruct (all_elems_in p x S T I) as [_ [_ V]]. rewrite V. reflexivity. }
  assert (LP := layout_pairs_ok c). assert (DP := dims_pairs_ok c a b z1 z2).
  assert (G1 : getXMLAttribute lay "type" = Ok (match c_type c with BARREL => "Barrel" | ENDCAP => "Endcap" end)%string).
  { apply get_attr; [exact LP | cbn; tauto]. }
  assert (G2 : get_int lay "symmetry" = Ok (c_sym c)) by (apply get_int_attr; [exact LP | cbn; tauto | exact Y]).
  assert (G3 : get_double lay "phi0" = Ok (atof (print_double (c_phi c)))) by (apply get_double_attr; [exact LP | cbn; tauto]).
  assert (G4 : get_double dim "inner_r" = Ok (atof (print_double a))).
  { apply get_double_attr; [exact DP|]. unfold dims_pairs. destruct (c_type c); cbn; tauto. }
  unfold calo_fromXML. rewrite F1, G1. cbn [rbind]. rewrite F2, G2, G3.
  assert (RL := read_layers (c_layout c)). specialize (fun f => RL f N). fold LE in RL.
  unfold base_calo. unfold dims_pairs in dim, DP. destruct (c_type c).
  - change (lower "Barrel") with "barrel"%string. cbn [String.eqb Ascii.eqb Bool.eqb negb andb rbind].
    assert (G5 : get_double dim "outer_z" = Ok (atof (print_double z2))).
    { apply get_double_attr; [exact DP | cbn; tauto]. }
    rewrite G4, G5. cbn [rbind]. unfold params_from_xml. rewrite I1, I2. rewrite read_elems by assumption. cbn [rbind fst snd]. rewrite RL. reflexivity.
  - change (lower "Endcap") with "endcap"%string. cbn [String.eqb Ascii.eqb Bool.eqb negb andb rbind].
    assert (G5 : get_double dim "outer_r" = Ok (atof (print_double b))).
    { apply get_double_attr; [exact DP | cbn; tauto]. }
    assert (G6 : get_double dim "inner_z" = Ok (atof (print_double z1))).
    { apply get_double_attr; [exact DP | cbn; tauto]. }
    rewrite G4, G5, G6. cbn [rbind]. unfold params_from_xml. rewrite I1, I2. rewrite read_elems by assumption. cbn [rbind fst snd]. rewrite RL. reflexivity.
Qed.

(** ** When do the layers come back *)
Lemma isEqual_spec : forall a b, isEqual a b = true <-> close a b.
Proof.
  intros a b. unfold isEqual, close. rewrite orb_true_iff, Reqb_true, Rltb_true.
  replace (Rabs ((a + b) / 2 * (1 / 10000))) with (Rabs (a + b) / 2 / 10000); [tauto|].
  replace ((a + b) / 2 * (1 / 10000)) with ((a + b) * / 20000) by field. rewrite Rabs_mult.
  rewrite (Rabs_pos_eq (/ 20000)) by lra. field.
Qed.
Lemma same_layer_spec : forall a b, same_layer a b = true <-> close_layers a b.
Proof. intros a b. unfold same_layer, close_layers. rewrite !andb_true_iff, !isEqual_spec. tauto. Qed.

Lemma equal_close : forall a b, equal_layers a b -> close_layers a b.
Proof. intros a b [A [B [C D]]]. unfold close_layers, close. auto. Qed.

Lemma distinct_cons : forall l m r, distinct_steps (l :: m :: r) <-> (close_layers l m -> equal_layers l m) /\ distinct_steps (m :: r).
Proof.
  intros l m r. split.
  - intros H. split; [apply (H 0%nat); reflexivity|]. intros i a b A B. apply (H (S i)); assumption.
  - intros [H1 H2] [|i] a b A B; [cbn in A, B; injection A as <-; injection B as <-; exact H1|]. apply (H2 i); assumption.
Qed.
Lemma distinct_short : forall v, (List.length v <= 1)%nat -> distinct_steps v.
Proof. intros [|a [|b v]] L i x y X Y; cbn in L; try lia; destruct i as [|[|i]]; discriminate. Qed.

Definition came_back (m l : layer) : Prop := equal_layers (back_layer (L_Distance l) m) l.

Lemma collapse_back : forall v, Forall2 came_back (merged v) v ->
  (forall l, In l v -> kept_layer l) /\ distinct_steps v /\ Forall2 equal_layers (merged v) v.
Proof.
  induction v as [|l v IH]; intros F.
  - split; [intros l []|]. split; [apply distinct_short; cbn; lia | constructor].
  - destruct v as [|m r].
    + cbn in F. assert (B : came_back l l) by (inversion F; assumption). destruct B as [A [B [C D]]]. cbn in A, B, C, D.
      split; [intros x [<-|[]]; repeat split; assumption|]. split; [apply distinct_short; cbn; lia|].
      cbn. constructor; [repeat split | constructor].
    + destruct (same_layer l m) eqn:S.
      * rewrite merged_same in * by exact S.
        assert (F1 : came_back (head_of m r) l) by (inversion F; assumption).
        assert (F2 : Forall2 came_back (merged (m :: r)) (m :: r)) by (inversion F; assumption).
        destruct (IH F2) as [K [D E]].
        assert (EH : equal_layers (head_of m r) m).
        { unfold head_of. destruct (merged (m :: r)) as [|x w]; inversion E; assumption. }
        assert (KM : kept_layer m) by (apply K; left; reflexivity).
        assert (EL : equal_layers m l).
        { destruct F1 as [A1 [A2 [A3 A4]]]. cbn in A1, A2, A3, A4. destruct EH as [B1 [B2 [B3 B4]]]. destruct KM as [K1 [K2 [K3 K4]]].
          unfold kept in *. rewrite B1, K1 in A1. rewrite B2, K2 in A2. rewrite B3, K3 in A3. rewrite B4, K4 in A4.
          repeat split; assumption. }
        assert (EL2 : equal_layers l m) by (destruct EL as [A1 [A2 [A3 A4]]]; repeat split; symmetry; assumption).
        split; [|split].
        { intros x [<-|X]; [|apply K; exact X]. destruct EL2 as [A1 [A2 [A3 A4]]]. destruct KM as [K1 [K2 [K3 K4]]].
          unfold kept_layer. rewrite A1, A2, A3, A4. repeat split; assumption. }
        { apply distinct_cons. split; [intros _; exact EL2 | exact D]. }
        { constructor; [|exact E]. destruct EH as [B1 [B2 [B3 B4]]]. destruct EL as [A1 [A2 [A3 A4]]]. repeat split; congruence. }
      * rewrite merged_other in * by exact S.
        assert (F1 : came_back l l) by (inversion F; assumption).
        assert (F2 : Forall2 came_back (merged (m :: r)) (m :: r)) by (inversion F; assumption).
        destruct (IH F2) as [K [D E]]. split; [|split].
        { intros x [<-|X]; [|apply K; exact X]. exact F1. }
        { apply distinct_cons. split; [|exact D]. intros C. apply same_layer_spec in C. congruence. }
        { constructor; [repeat split | exact E]. }
Qed.

Lemma distinct_merged : forall v, distinct_steps v -> Forall2 equal_layers (merged v) v.
Proof.
  induction v as [|l v IH]; intros D; [constructor|]. destruct v as [|m r]; [cbn; constructor; [repeat split | constructor]|].
  apply distinct_cons in D. destruct D as [D1 D2]. specialize (IH D2). destruct (same_layer l m) eqn:S.
  - rewrite merged_same by exact S. constructor; [|exact IH]. apply same_layer_spec in S. specialize (D1 S).
    assert (EH : equal_layers (head_of m r) m).
    { unfold head_of. destruct (merged (m :: r)) as [|x w]; inversion IH; assumption. }
    destruct EH as [B1 [B2 [B3 B4]]]. destruct D1 as [A1 [A2 [A3 A4]]]. repeat split; congruence.
  - rewrite merged_other by exact S. constructor; [repeat split | exact IH].
Qed.

Lemma placed_back : forall m v pos, placed pos m = v -> Forall2 came_back m v.
Proof.
  induction m as [|x m IH]; intros v pos E; cbn in E; subst v; constructor.
  - repeat split.
  - eapply IH. reflexivity.
Qed.

Lemma placed_gap_free : forall m pos, gap_free pos (placed pos m).
Proof. induction m as [|x m IH]; intros pos; cbn; [exact I|]. split; [reflexivity | apply IH]. Qed.

Lemma placed_same : forall m v pos, Forall2 equal_layers m v -> (forall l, In l v -> kept_layer l) -> gap_free pos v -> placed pos m = v.
Proof.
  induction m as [|x m IH]; intros v pos F K G; inversion F as [|? l ? r E F2]; subst; [reflexivity|].
  cbn. destruct G as [G1 G2]. destruct (K l (or_introl eq_refl)) as [K1 [K2 [K3 K4]]]. unfold kept in *. destruct E as [E1 [E2 [E3 E4]]].
  unfold back_layer. rewrite E1, E2, E3, E4, K1, K2, K3, K4. rewrite (IH r (pos + L_Thickness l)).
  - rewrite <- G1. destruct l; reflexivity.
  - exact F2.
  - intros y Y. apply K. right. exact Y.
  - exact G2.
Qed.

Lemma layers_back_iff : forall v pos, placed pos (merged v) = v <->
  gap_free pos v /\ distinct_steps v /\ forall l, In l v -> kept_layer l.
Proof.
  intros v pos. split.
  - intros E. destruct (collapse_back v (placed_back _ _ _ E)) as [K [D _]].
    split; [rewrite <- E; apply placed_gap_free|]. split; assumption.
  - intros [G [D K]]. apply placed_same; [apply distinct_merged; exact D | exact K | exact G].
Qed.

(** ** C34 *)
Lemma extent_four : forall c a b z1 z2, c_extent c = [a; b; z1; z2] -> exists c1 e1 e2,
  getExtent c = SOk c1 (match c_type c with BARREL => [a; e1; z1; z2] | ENDCAP => [a; b; z1; e2] end) /\
  (c_layout c = [] -> e1 = b /\ e2 = z2) /\
  (c_layout c <> [] -> e1 = next_pos (c_layout c) /\ e2 = next_pos (c_layout c)).
Proof.
  intros c a b z1 z2 E. destruct (ext_ok c) as [c' [v [G [_ [_ [_ [_ [Q1 Q2]]]]]]]].
  destruct (c_layout c) as [|l r] eqn:L.
  - destruct (Q1 eq_refl) as [-> ->]. exists c, b, z2. split; [rewrite G, E; destruct (c_type c); reflexivity|].
    split; [auto | intros H; contradiction].
  - destruct Q2 as [V X]; [discriminate|]. exists c', (next_pos (l :: r)), (next_pos (l :: r)).
    split; [|split; [discriminate | auto]]. rewrite G, V, X, E. destruct (c_type c); reflexivity.
Qed.

Lemma reload_calo : forall c p a b z1 z2, sorted_params p -> text_ok_params p -> is_int (c_sym c) ->
  (getNLayers (c_layout c) < 2147483648)%Z -> c_extent c = [a; b; z1; z2] ->
  exists b' z2', reload calo_toXML calo_fromXML (c, p) =
    Ok (set_layout (fst (base_calo c a b' z1 z2')) (placed (snd (base_calo c a b' z1 z2')) (merged (c_layout c))), back p) /\
  match c_type c with BARREL => z2' = z2 | ENDCAP => b' = b end.
Proof.
  intros c p a b z1 z2 S T Y N E. destruct (extent_four c a b z1 z2 E) as [c1 [e1 [e2 [G _]]]].
  assert (Q : exists b' z2', match c_type c with BARREL => [a; e1; z1; z2] | ENDCAP => [a; b; z1; e2] end = [a; b'; z1; z2'] /\
     match c_type c with BARREL => z2' = z2 | ENDCAP => b' = b end).
  { destruct (c_type c); eauto. }
  destruct Q as [b' [z2' [Q1 Q2]]]. rewrite Q1 in G. exists b', z2'. split; [|exact Q2].
  unfold reload. rewrite (calo_element c p [a; b'; z1; z2'] c1 S G eq_refl). cbn [rbind].
  rewrite via_writable; [|apply calo_writable; assumption | reflexivity]. cbn [rbind].
  apply calo_read; assumption.
Qed.

Lemma storable_text : forall p, storable p -> text_ok_params p.
Proof. intros p H t k v G. destruct (H t k v G) as [A [B C]]. split; [split; assumption | exact C]. Qed.

Lemma barrel_survives : forall rMin zMax sym phi0 h hp,
  let c := calo_run (new_barrel rMin zMax sym phi0) h in let p := after hp in
  is_int sym -> (getNLayers (getLayerLayout c) < 2147483648)%Z -> storable p -> kept rMin -> kept zMax -> kept phi0 ->
  exists c' p', reload calo_toXML calo_fromXML (c, p) = Ok (c', p') /\
    getLayoutType c' = BARREL /\ getSymmetryOrder c' = sym /\ getPhi0 c' = phi0 /\
    getNLayers (getLayerLayout c') = getNLayers (getLayerLayout c) /\ gap_free rMin (getLayerLayout c') /\
    (getLayerLayout c' = getLayerLayout c <->
       gap_free rMin (getLayerLayout c) /\ distinct_steps (getLayerLayout c) /\ forall l, In l (getLayerLayout c) -> kept_layer l) /\
    (getLayerLayout c' = getLayerLayout c -> extent_of c' = extent_of c) /\
    (p' = p <-> forall t k v, do_get t p k = Ok v -> survives v).
Proof.
  intros rMin zMax sym phi0 h hp c p Y N SP K1 K2 K3.
  destruct (run_extent h (new_barrel rMin zMax sym phi0) rMin rMin 0 zMax eq_refl) as [b' [z2' [E [E2 E3]]]]. fold c in E, E3. cbn in E2. subst z2'.
  destruct (run_fixed h (new_barrel rMin zMax sym phi0)) as [Ty [Sy Ph]]. fold c in Ty, Sy, Ph. cbn in Ty, Sy, Ph.
  destruct (reload_calo c p _ _ _ _ (after_sorted hp) (storable_text p SP) ltac:(rewrite Sy; exact Y) N E) as [b2 [z2 [R Z]]].
  rewrite Ty in Z. subst z2.
  assert (B : base_calo c rMin b2 0 zMax = (new_barrel rMin zMax sym phi0, rMin)).
  { unfold base_calo. rewrite Ty, Sy, Ph. unfold kept in *. rewrite K1, K2, K3. reflexivity. }
  rewrite B in R. cbn [fst snd] in R. eexists. eexists. split; [exact R|]. cbn [getLayoutType getSymmetryOrder getPhi0 getLayerLayout set_layout c_type c_sym c_phi c_layout new_barrel].
  split; [reflexivity|]. split; [reflexivity|]. split; [reflexivity|].
  split; [unfold getNLayers; rewrite placed_length, merged_length; reflexivity|]. split; [apply placed_gap_free|].
  split; [apply layers_back_iff|]. split; [|apply back_same_iff; apply after_sorted].
  intros LE. rewrite LE. unfold extent_of.
  destruct (extent_four c rMin b' 0 zMax E) as [c1 [e1 [e2 [G [G1 G2]]]]]. rewrite G, Ty.
  destruct (extent_four (set_layout (new_barrel rMin zMax sym phi0) (c_layout c)) rMin rMin 0 zMax eq_refl) as [d1 [f1 [f2 [H [H1 H2]]]]].
  cbn [c_type c_layout set_layout new_barrel] in *.
  match goal with |- match ?g with _ => _ end = _ => change g with (getExtent (set_layout (new_barrel rMin zMax sym phi0) (c_layout c))) end. rewrite H.
  destruct (c_layout c) as [|l r].
  - destruct (G1 eq_refl) as [-> _]. destruct (H1 eq_refl) as [-> _]. destruct (E3 eq_refl) as [-> _]. reflexivity.
  - destruct G2 as [-> _]; [discriminate|]. destruct H2 as [-> _]; [discriminate|]. reflexivity.
Qed.

Lemma endcap_survives : forall rMin rMax zMin sym phi0 h hp,
  let c := calo_run (new_endcap rMin rMax zMin sym phi0) h in let p := after hp in
  is_int sym -> (getNLayers (getLayerLayout c) < 2147483648)%Z -> storable p -> kept rMin -> kept rMax -> kept zMin -> kept phi0 ->
  exists c' p', reload calo_toXML calo_fromXML (c, p) = Ok (c', p') /\
    getLayoutType c' = ENDCAP /\ getSymmetryOrder c' = sym /\ getPhi0 c' = phi0 /\
    getNLayers (getLayerLayout c') = getNLayers (getLayerLayout c) /\ gap_free zMin (getLayerLayout c') /\
    (getLayerLayout c' = getLayerLayout c <->
       gap_free zMin (getLayerLayout c) /\ distinct_steps (getLayerLayout c) /\ forall l, In l (getLayerLayout c) -> kept_layer l) /\
    (getLayerLayout c' = getLayerLayout c -> extent_of c' = extent_of c) /\
    (p' = p <-> forall t k v, do_get t p k = Ok v -> survives v).
Proof.
  intros rMin rMax zMin sym phi0 h hp c p Y N SP K1 K2 K4 K3.
  destruct (run_extent h (new_endcap rMin rMax zMin sym phi0) rMin rMax zMin zMin eq_refl) as [b' [z2' [E [E2 E3]]]]. fold c in E, E3. cbn in E2. subst b'.
  destruct (run_fixed h (new_endcap rMin rMax zMin sym phi0)) as [Ty [Sy Ph]]. fold c in Ty, Sy, Ph. cbn in Ty, Sy, Ph.
  destruct (reload_calo c p _ _ _ _ (after_sorted hp) (storable_text p SP) ltac:(rewrite Sy; exact Y) N E) as [b2 [z2 [R Z]]].
  rewrite Ty in Z. subst b2.
  assert (B : base_calo c rMin rMax zMin z2 = (new_endcap rMin rMax zMin sym phi0, zMin)).
  { unfold base_calo. rewrite Ty, Sy, Ph. unfold kept in *. rewrite K1, K2, K3, K4. reflexivity. }
  rewrite B in R. cbn [fst snd] in R. eexists. eexists. split; [exact R|]. cbn [getLayoutType getSymmetryOrder getPhi0 getLayerLayout set_layout c_type c_sym c_phi c_layout new_endcap].
  split; [reflexivity|]. split; [reflexivity|]. split; [reflexivity|].
  split; [unfold getNLayers; rewrite placed_length, merged_length; reflexivity|]. split; [apply placed_gap_free|].
  split; [apply layers_back_iff|]. split; [|apply back_same_iff; apply after_sorted].
  intros LE. rewrite LE. unfold extent_of.
  destruct (extent_four c rMin rMax zMin z2' E) as [c1 [e1 [e2 [G [G1 G2]]]]]. rewrite G, Ty.
  destruct (extent_four (set_layout (new_endcap rMin rMax zMin sym phi0) (c_layout c)) rMin rMax zMin zMin eq_refl) as [d1 [f1 [f2 [H [H1 H2]]]]].
  cbn [c_type c_layout set_layout new_endcap] in *.
  match goal with |- match ?g with _ => _ end = _ => change g with (getExtent (set_layout (new_endcap rMin rMax zMin sym phi0) (c_layout c))) end. rewrite H.
  destruct (c_layout c) as [|l r].
  - destruct (G1 eq_refl) as [_ ->]. destruct (H1 eq_refl) as [_ ->]. destruct (E3 eq_refl) as [_ ->]. reflexivity.
  - destruct G2 as [_ ->]; [discriminate|]. destruct H2 as [_ ->]; [discriminate|]. reflexivity.
Qed.

(** ** Drifting layers *)

Definition flat (t : Z) (l : layer) : Prop := L_Thickness l = IZR t /\ L_AbsorberThickness l = 1 /\ L_CellSize0 l = 1 /\ L_CellSize1 l = 1.

Lemma drift_merged : forall n t pos, (1000000 <= t)%Z ->
  forall l, In l (merged (appended pos (drift (S n) t))) -> flat (t + 50 * Z.of_nat n) l.
Proof.
  induction n as [|n IH]; intros t pos T l I.
  - cbn in I. destruct I as [<-|[]]. cbn. rewrite Z.add_0_r. repeat split.
  - change (appended pos (drift (S (S n)) t)) with
      (mkLayer pos (IZR t) 1 1 1 :: mkLayer (pos + IZR t) (IZR (t + 50)) 1 1 1 :: appended (pos + IZR t + IZR (t + 50)) (drift n (t + 50 + 50))) in I.
    assert (IHs : forall l, In l (merged (appended (pos + IZR t) (drift (S n) (t + 50)))) -> flat (t + 50 * Z.of_nat (S n)) l).
    { intros x X. replace (t + 50 * Z.of_nat (S n))%Z with (t + 50 + 50 * Z.of_nat n)%Z by lia. apply (IH (t + 50)%Z (pos + IZR t)); [lia | exact X]. }
    change (appended (pos + IZR t) (drift (S n) (t + 50))) with
      (mkLayer (pos + IZR t) (IZR (t + 50)) 1 1 1 :: appended (pos + IZR t + IZR (t + 50)) (drift n (t + 50 + 50))) in IHs.
    rewrite merged_same in I.
    + destruct I as [<-|I]; [|apply IHs; exact I]. apply IHs. unfold head_of.
      match goal with |- In (hd _ (merged ?q)) _ => pose proof (merged_length q) as ML; destruct (merged q); [discriminate|] end. left. reflexivity.
    + apply same_layer_spec. split; [|repeat split; left; reflexivity]. right. cbn [L_Thickness].
      rewrite <- minus_IZR, <- plus_IZR, <- !abs_IZR.
      replace (Z.abs (t - (t + 50)))%Z with 50%Z by lia. replace (Z.abs (t + (t + 50)))%Z with (2 * t + 50)%Z by lia.
      rewrite plus_IZR, mult_IZR. apply IZR_le in T. lra.
Qed.

Lemma placed_in : forall v pos l, In l (placed pos v) -> exists m d, In m v /\ l = back_layer d m.
Proof.
  induction v as [|x v IH]; intros pos l I; [destruct I|]. cbn in I. destruct I as [<-|I].
  - exists x, pos. split; [left; reflexivity | reflexivity].
  - destruct (IH _ _ I) as [m [d [M E]]]. exists m, d. split; [right; exact M | exact E].
Qed.

Lemma drift_length : forall n t, List.length (layers_of (drift n t)) = n.
Proof. induction n as [|n IH]; intros t; [reflexivity|]. cbn. f_equal. apply IH. Qed.

Lemma drift_collapses : forall n rMin zMax sym phi0, (1000000 + 50 * Z.of_nat n < 10 ^ 10)%Z -> is_int sym ->
  let c := calo_run (new_barrel rMin zMax sym phi0) (drift (S n) 1000000) in
  getNLayers (getLayerLayout c) = Z.of_nat (S n) /\ getThickness (getLayerLayout c) 0 = Ok 1000000 /\
  exists c' p', reload calo_toXML calo_fromXML (c, params_empty) = Ok (c', p') /\
    getThickness (getLayerLayout c') 0 = Ok (IZR (1000000 + 50 * Z.of_nat n)).
Proof.
  intros n rMin zMax sym phi0 H Y c.
  assert (LY : c_layout c = appended 0 (drift (S n) 1000000)).
  { unfold c. rewrite run_layout. reflexivity. }
  assert (LEN : List.length (c_layout c) = S n).
  { rewrite LY, appended_len, drift_length. reflexivity. }
  split; [unfold getNLayers, getLayerLayout; rewrite LEN; reflexivity|].
  split; [unfold getLayerLayout; rewrite LY; cbn; reflexivity|].
  destruct (run_extent (drift (S n) 1000000) (new_barrel rMin zMax sym phi0) rMin rMin 0 zMax eq_refl) as [b' [z2' [E _]]]. fold c in E.
  destruct (run_fixed (drift (S n) 1000000) (new_barrel rMin zMax sym phi0)) as [Ty [Sy Ph]]. fold c in Ty, Sy, Ph. cbn [c_type c_sym c_phi new_barrel] in Ty, Sy, Ph.
  assert (TE : text_ok_params params_empty) by (intros t k v G; destruct t; discriminate).
  assert (N : (getNLayers (c_layout c) < 2147483648)%Z) by (unfold getNLayers; rewrite LEN; change (10 ^ 10)%Z with 10000000000%Z in H; lia).
  assert (YS : is_int (c_sym c)) by (rewrite Sy; exact Y).
  destruct (reload_calo c params_empty _ _ _ _ (after_sorted []) TE YS N E) as [b2 [z2 [R _]]].
  eexists. eexists. split; [exact R|]. cbn [getLayerLayout set_layout c_layout].
  set (pos := snd (base_calo c rMin b2 0 z2)).
  pose proof (placed_length (merged (c_layout c)) pos) as PL. rewrite merged_length, LEN in PL.
  destruct (placed pos (merged (c_layout c))) as [|l w] eqn:P; [discriminate|].
  destruct (placed_in (merged (c_layout c)) pos l) as [m [d [M ->]]]; [rewrite P; left; reflexivity|].
  rewrite LY in M. apply drift_merged in M; [|lia]. destruct M as [M _].
  change (getThickness (back_layer d m :: w) 0) with (Ok (atof (print_double (L_Thickness m)))). rewrite M. f_equal. apply whole_kept. lia.
Qed.
