(** Streams: whole documents, arbitrary input, turns. *)
From Coq Require Import ZArith List String Ascii Bool Lia.
From Verif Require Import Base XmlModel XmlSpec XmlProofs XmlProofs2 StreamModel StreamSpec StreamProofs StreamProofs2.
Import ListNotations.
Open Scope Z_scope.

(** ** what is written are renderings *)
Lemma PutString_esc s : charref_free s -> PutString s = esc s.
Proof. intros C. unfold PutString. now apply put_esc. Qed.
Lemma out_attrs_eq a : Forall attr_ok a -> out_attrs a = print_attrs a.
Proof.
  induction 1 as [|[k v] a (X & N & C) F IH]; [reflexivity|]. cbn [fst snd] in *. cbn [out_attrs print_attrs]. rewrite IH. unfold out_attr, print_attr. cbn [fst snd].
  rewrite (c_str_PutString v C), (c_str_PutString k (name_charref_free k (xml_name_bytes k X))), (PutString_esc v C), (PutString_esc k (name_charref_free k (xml_name_bytes k X))). reflexivity.
Qed.
Fixpoint out_nodes (l : list xnode) : string := match l with [] => ""%string | c :: t => out_node c +++ out_nodes t end.
Lemma out_go l : (fix go (l : list xnode) : string := match l with [] => ""%string | c :: t => out_node c +++ go t end) l = out_nodes l.
Proof. induction l as [|c l IH]; [reflexivity|]. cbn [out_nodes]. rewrite <- IH. reflexivity. Qed.
Lemma adjacent_tail x l : no_adjacent_text (x :: l) -> no_adjacent_text l.
Proof. intros N. destruct x, l as [|[] ?]; cbn in N |- *; tauto. Qed.
Lemma adjacent_text s l : no_adjacent_text (XText s :: l) -> not_text_first l.
Proof. intros N. destruct l as [|[] ?]; cbn in N |- *; tauto. Qed.
Lemma out_rends l : (forall x, In x l -> writable x) -> no_adjacent_text l -> (forall x, In x l -> is_text x = false -> rend x (out_node x)) -> rends l (out_nodes l).
Proof.
  induction l as [|x l IH]; intros W N R; cbn [out_nodes]; [now constructor|].
  assert (IH' : rends l (out_nodes l)) by (apply IH; [intros y I; apply W; now right|now apply adjacent_tail with x|intros y I; apply R; now right]).
  destruct (is_text x) eqn:T.
  - destruct x as [| s | | |]; try discriminate. assert (WX : writable (XText s)) by (apply W; now left). inversion WX; subst. cbn [out_node]. rewrite PutString_esc by assumption.
    apply (R_text ""); auto. now apply adjacent_text with s.
  - apply (R_node ""); auto. apply R; [now left|exact T].
Qed.
Lemma out_rend x : writable x -> is_text x = false -> rend x (out_node x).
Proof.
  induction x as [n a ch IH|s|s|s|v e s] using xnode_induct; intros W T; try discriminate; inversion W; subst.
  - assert (AT : Forall attr_ok a) by now apply attrs_forall. cbn [out_node]. rewrite out_go, (out_attrs_eq a AT). destruct ch as [|y ch]; [now constructor|].
    apply R_elem; auto. apply out_rends; auto. intros x I T'. rewrite Forall_forall in IH. apply IH; auto.
  - cbn [out_node]. now constructor.
Qed.
Lemma print_rends depth l w : all_ws w = true -> (forall x, In x l -> writable x) -> no_adjacent_text l -> (forall x, In x l -> is_text x = false -> rend x (body depth x)) ->
  rends l (print_children depth l +++ w).
Proof.
  intros A. induction l as [|x l IH]; intros W N R; cbn [print_children]; [now constructor|].
  assert (IH' : rends l (print_children depth l +++ w)) by (apply IH; [intros y I; apply W; now right|now apply adjacent_tail with x|intros y I; apply R; now right]).
  rewrite !sapp_assoc. destruct (is_text x) eqn:T.
  - destruct x as [| s | | |]; try discriminate. assert (WX : writable (XText s)) by (apply W; now left). inversion WX; subst. cbn [print_node]. rewrite c_str_PutString by assumption.
    apply (R_text ""); auto. now apply adjacent_text with s.
  - rewrite print_node_body by (auto; apply W; now left). rewrite sapp_assoc, <- sapp_assoc. apply R_node; [rewrite all_ws_app, indent_ws; reflexivity|apply R; [now left|exact T]|exact IH'].
Qed.
Lemma print_rend x : writable x -> is_text x = false -> forall depth, rend x (body depth x).
Proof.
  induction x as [n a ch IH|s|s|s|v e s] using xnode_induct; intros W T depth; try discriminate; inversion W; subst.
  - assert (AT : Forall attr_ok a) by now apply attrs_forall. cbn [body]. rewrite name_cstr by assumption. destruct ch as [|y ch]; [now constructor|].
    match goal with |- context [print_children (S depth) (y :: ch) +++ ?w +++ _] => set (w0 := w) end.
    assert (AW : all_ws w0 = true) by (unfold w0; destruct y, ch; try reflexivity; rewrite all_ws_app, indent_ws; reflexivity). clearbody w0.
    rewrite <- (sapp_assoc (print_children (S depth) (y :: ch))). apply R_elem; auto. apply print_rends; auto. intros x I T'. rewrite Forall_forall in IH. apply IH; auto.
  - cbn [body print_node indent]. rewrite c_str_id by assumption. now constructor.
Qed.

(** ** parsing documents *)
Lemma doc_loop_rends l : forall v m, rends l v -> (forall x, In x l -> is_text x = false) -> (String.length v < m)%nat ->
  doc_loop m EncUnknown (SkipWhiteSpace EncUnknown (Some v)) = POk (l, false).
Proof.
  induction l as [|x l IH]; intros v m R T L; inversion R; subst.
  - destruct v as [|c v]; [destruct m; [lia|]; reflexivity|]. rewrite skip_some by discriminate.
    assert (E : skip_ws (String c v) = ""%string) by (rewrite <- (sapp_nil_r (String c v)), skip_ws_app by assumption; reflexivity). rewrite E. destruct m; [lia|]. reflexivity.
  - match goal with H : rend x ?u0 |- _ => rename u0 into u; rename H into RX end. match goal with H : rends l ?y |- _ => rename y into v; rename H into RL end.
    destruct (rend_head _ _ RX) as (c & t & E & _). rewrite !slen_app in L.
    rewrite skip_some by (intros Q; apply (f_equal String.length) in Q; rewrite !slen_app in Q; rewrite E in Q; cbn in Q; lia). rewrite skip_ws_app by assumption.
    assert (E' : u +++ v = String ltc (String c t +++ v)) by (rewrite E; reflexivity). assert (SK : skip_ws (u +++ v) = u +++ v) by (rewrite E'; reflexivity). rewrite SK.
    destruct m as [|m]; [lia|]. cbn [doc_loop]. rewrite E', (ceqb_refl ltc). cbn [negb]. rewrite <- E'. unfold parse_node.
    rewrite (rend_reads x u RX v (elem_fuel (u +++ v))) by (unfold elem_fuel; lia). cbn [pbind].
    assert (NE : next_enc EncUnknown x = EncUnknown) by (destruct RX; reflexivity). rewrite NE, IH; auto.
    + intros y I. apply T. now right.
    + rewrite E in L. cbn [String.length] in L. lia.
  - exfalso. specialize (T _ (or_introl eq_refl)). discriminate.
Qed.
Lemma ws_enc c v : IsWhiteSpace c = true \/ c = ltc -> start_enc (String c v) = EncUnknown.
Proof.
  intros H. unfold start_enc. destruct v as [|c1 [|c2 v]]; try reflexivity. replace (byte c =? 239) with false; [reflexivity|]. symmetry. apply Z.eqb_neq.
  destruct H as [H| ->]; [|discriminate]. intros Q. revert H. destruct c as [[] [] [] [] [] [] [] []]; try discriminate; cbv in Q; discriminate Q.
Qed.
Lemma parse_doc_rends l v : rends l v -> (forall x, In x l -> is_text x = false) -> l <> [] -> parse_doc v = POk (l, false).
Proof.
  intros R T NE. unfold parse_doc.
  assert (H : exists c t, v = String c t /\ (IsWhiteSpace c = true \/ c = ltc)).
  { destruct R as [w A|w x u l v A R RL|w s l v]; [congruence| |specialize (T _ (or_introl eq_refl)); discriminate].
    destruct w as [|c w].
    - destruct (rend_head _ _ R) as (c & t & -> & _). cbn [String.append]. eauto.
    - cbn [all_ws] in A. apply andb_true_iff in A. destruct A as [A _]. cbn [String.append]. eauto. }
  destruct H as (c & t & -> & C). cbv zeta. rewrite (ws_enc c t C). pose proof (doc_loop_rends l (String c t)) as D. rewrite skip_some by discriminate. rewrite skip_some in D by discriminate.
  assert (SL : exists m, doc_loop (S (String.length (skip_ws (String c t)))) EncUnknown (Some (skip_ws (String c t))) = POk (l, false) /\ m = O).
  { exists O. split; [|reflexivity]. 
    assert (IDEM : skip_ws (String c t) = skip_ws (skip_ws (String c t))).
    { generalize (String c t). induction s as [|d s IH]; [reflexivity|]. cbn [skip_ws]. destruct (IsWhiteSpace d) eqn:W; [exact IH|]. cbn [skip_ws]. now rewrite W. }
    destruct (skip_ws (String c t)) as [|d y] eqn:SK.
    - specialize (D (S (String.length (String c t))) R T ltac:(lia)). destruct l; [congruence|]. discriminate D.
    - assert (R2 : rends l (String d y)).
      { clear D. rewrite <- SK. clear SK IDEM. revert R T. clear. intros R T. inversion R; subst.
        - match goal with A : all_ws _ = true |- _ => rewrite <- (sapp_nil_r (String c t)), (skip_ws_app _ _ A) end. now constructor.
        - match goal with A : all_ws ?w = true |- _ => rewrite (skip_ws_app w _ A) end. match goal with RX : rend x ?u |- _ => destruct (rend_head _ _ RX) as (d & z & E & _); 
            assert (SK : skip_ws (u +++ v) = u +++ v) by (rewrite E; reflexivity) end. rewrite SK. now apply (R_node "").
        - exfalso. specialize (T _ (or_introl eq_refl)). discriminate. }
      pose proof (doc_loop_rends l (String d y) (S (String.length (String d y))) R2 T ltac:(lia)) as D2. rewrite skip_some in D2 by discriminate. rewrite <- IDEM in D2. exact D2. }
  destruct SL as (_ & SL & _). rewrite SL. cbn [pbind]. destruct l; [congruence|]. reflexivity.
Qed.
