(** Proofs about the modules of a TPC in a file that leave things out (C68). *)
From Coq Require Import ZArith List String Ascii Bool Reals Lia Lra.
From Verif Require Import Base BaseProofs RBase XmlModel XmlSpec XmlProofs NumModel NumSpec NumProofs HxModel HxSpec HxProofs
  ParamsModel ParamsSpec ParamsProofs ParXmlModel ParXmlSpec ParXmlProofs PadXmlModel PadXmlProofs PadXmlProofs2 TrkXmlSpec TrkXmlProofs
  TpcModuleModel TpcModel TpcXmlModel TpcXmlSpec TpcModuleProofs TpcModuleProofs2 TpcModuleProofs4 TpcProofs TpcXmlProofs TpcXmlProofs2.
From Verif Require TpcSpec.
Import TpcSpec.
Import ListNotations.
Open Scope list_scope.

Lemma find_app_or : forall {A} (f : A -> bool) l m, find f (l ++ m) = match find f l with Some x => Some x | None => find f m end.
Proof. intros A f. induction l as [|x l IH]; intros m; [reflexivity|]. cbn. destruct (f x); [reflexivity | apply IH]. Qed.
Lemma named_elem : forall k c, named k c = true -> is_elem c = true /\ Value c = k.
Proof. intros k c H. unfold named in H. apply andb_true_iff in H. destruct H as [H1 H2]. apply String.eqb_eq in H1. split; assumption. Qed.
Lemma pick_named : forall k ns c, In c (pick k ns) -> named k c = true.
Proof.
  intros k ns c H. unfold pick in H. destruct (find (named k) ns) as [e|] eqn:E; [|destruct H]. destruct H as [<-|[]]. apply find_some in E. apply E.
Qed.
Lemma inherited_named : forall ks ns c, In c (flat_map (fun k => pick k ns) ks) -> exists k, In k ks /\ named k c = true.
Proof. intros ks ns c H. apply in_flat_map in H. destruct H as [k [K C]]. exists k. split; [exact K | apply (pick_named _ _ _ C)]. Qed.

Lemma find_inherited : forall ks ns k, In k ks -> NoDup ks -> find (named k) (flat_map (fun k => pick k ns) ks) = find (named k) ns.
Proof.
  induction ks as [|a ks IH]; intros ns k I N; [destruct I|]. cbn [flat_map]. rewrite find_app_or. inversion N as [|? ? N1 N2]; subst.
  destruct (String.eqb_spec a k) as [->|D].
  - unfold pick at 1. destruct (find (named k) ns) as [e|] eqn:E.
    + cbn [find]. pose proof (find_some _ _ E) as [_ Q]. rewrite Q. reflexivity.
    + cbn [find]. destruct (find (named k) (flat_map (fun k0 => pick k0 ns) ks)) as [e|] eqn:F; [|reflexivity].
      apply find_some in F. destruct F as [F1 F2]. apply in_flat_map in F1. destruct F1 as [k' [K1 K2]]. apply pick_named in K2.
      apply named_elem in K2. apply named_elem in F2. destruct K2 as [_ K2]. destruct F2 as [_ F2]. assert (k = k') by congruence. subst. contradiction.
  - destruct I as [I|I]; [contradiction|]. replace (find (named k) (pick a ns)) with (@None xnode); [apply IH; assumption|].
    symmetry. unfold pick. destruct (find (named a) ns) as [e|] eqn:E; [|reflexivity]. cbn [find]. destruct (named k e) eqn:Q; [|reflexivity].
    apply find_some in E. destruct E as [_ E]. apply named_elem in E. apply named_elem in Q. destruct E, Q. congruence.
Qed.
Lemma inheritable_nodup : NoDup inheritable.
Proof. repeat constructor; cbn; intuition discriminate. Qed.

Definition de_children (de : option xnode) : list xnode := match de with Some d => children d | None => [] end.
Lemma tag_find : forall me de k, tag me de k = match find (named k) (children me) with Some e => Some e | None => find (named k) (de_children de) end.
Proof. intros me de k. unfold tag, FirstChildElement, named. destruct (find _ (children me)); [reflexivity|]. destruct de; reflexivity. Qed.
Lemma find_last : forall k s, find (named k) [value_elem "moduleID" s] = if String.eqb "moduleID" k then Some (value_elem "moduleID" s) else None.
Proof. intros. cbn [find]. unfold named. cbn [Value value_elem is_elem]. rewrite andb_true_r. reflexivity. Qed.
Lemma tag_full : forall me de id k, In k inheritable ->
  tag (in_full me (de_children de) id) None k =
  match tag me de k with Some e => Some e | None => if String.eqb "moduleID" k then Some (value_elem "moduleID" (print_int id)) else None end.
Proof.
  intros me de id k K. rewrite !tag_find. cbn [de_children find]. unfold in_full. cbn [children]. rewrite !find_app_or, find_last.
  rewrite find_inherited by (exact K || exact inheritable_nodup).
  destruct (find (named k) (children me)); [reflexivity|]. destruct (find (named k) (de_children de)); [reflexivity|]. destruct (String.eqb "moduleID" k); reflexivity.
Qed.
Lemma params_full : forall me de id, params_from_xml (in_full me de id) params_empty = params_from_xml me params_empty.
Proof.
  intros. unfold params_from_xml. f_equal. unfold IterateChildren, in_full. cbn [children]. rewrite !filter_app.
  rewrite (filter_none (fun c => String.eqb (Value c) "parameter") (flat_map (fun k => pick k de) inheritable)).
  - cbn [filter Value value_elem String.eqb Ascii.eqb Bool.eqb app]. rewrite app_nil_r. reflexivity.
  - intros c C. apply inherited_named in C. destruct C as [k [K N]]. apply named_elem in N. destruct N as [_ ->].
    repeat (destruct K as [<-|K]; [reflexivity|]). destruct K.
Qed.
Lemma full_module : forall me de type id any, is_int id ->
  module_fromXML (in_full me (de_children de) id) None type any = module_fromXML me de type id.
Proof.
  intros me de type id any I. unfold module_fromXML. rewrite params_full.
  rewrite (tag_full me de id "moduleID"), (tag_full me de id "readoutFrequency"), (tag_full me de id "PadRowLayout2D"), (tag_full me de id "offset"),
    (tag_full me de id "zPosition"), (tag_full me de id "angle"), (tag_full me de id "enlargeActiveAreaBy") by (cbn; tauto).
  cbn [String.eqb Ascii.eqb Bool.eqb].
  assert (E : forall o : option xnode, match o with Some e => Some e | None => None end = o) by (intros [?|]; reflexivity). rewrite !E.
  destruct (tag me de "moduleID") as [e|]; [reflexivity|].
  replace (get_int (value_elem "moduleID" (print_int id)) "value") with (Ok id); [reflexivity|].
  symmetry. apply value_int. exact I.
Qed.

(** ** A section *)
Section Sections.
Variable type : Z.
Variable ns : list xnode.
Variable start : Z.

Definition here (i : nat) : option xnode :=
  match find (named "default") (rev (firstn i ns)) with Some d => Some d | None => find (named "default") ns end.
Lemma default_here : forall i, default_of ns i = de_children (here i).
Proof. intros i. unfold default_of, here. destruct (find _ (rev _)); [reflexivity|]. destruct (find _ ns); reflexivity. Qed.
Definition item (i : nat) : list xnode := match nth_error ns i with
                     | Some n => if named "module" n then [in_full n (default_of ns i) (number_of ns start i)] else []
                     | None => [] end.

Lemma read_full : forall b n i, read_module type b (in_full n (default_of ns i) (number_of ns start i)) None (number_of ns start i) =
  read_module type b n (here i) (number_of ns start i).
Proof.
  intros [[h t] mp] n i. unfold read_module. destruct (_ && _)%bool eqn:B; [|reflexivity]. rewrite default_here, full_module; [reflexivity|].
  apply andb_true_iff in B. destruct B as [B1 B2]. apply Z.leb_le in B1. apply Z.leb_le in B2. unfold is_int. lia.
Qed.

Lemma read_written : forall rest pre, ns = pre ++ rest -> forall b,
  read_nodes type (flat_map item (seq (List.length pre) (List.length rest))) None (number_of ns start (List.length pre)) b =
  read_nodes type rest (here (List.length pre)) (number_of ns start (List.length pre)) b.
Proof.
  induction rest as [|n rest IH]; intros pre E b; [reflexivity|].
  assert (NE : nth_error ns (List.length pre) = Some n) by (rewrite E, nth_error_app2 by lia; rewrite Nat.sub_diag; reflexivity).
  assert (E' : ns = (pre ++ [n]) ++ rest) by (rewrite <- app_assoc; exact E).
  assert (FN : firstn (List.length pre) ns = pre) by (rewrite E, firstn_app, Nat.sub_diag, firstn_all; apply app_nil_r).
  assert (FN' : firstn (List.length (pre ++ [n])) ns = pre ++ [n]) by (rewrite E', firstn_app, Nat.sub_diag, firstn_all; apply app_nil_r).
  assert (L : List.length (pre ++ [n]) = S (List.length pre)) by (rewrite app_length; cbn; lia).
  cbn [List.length seq flat_map]. unfold item at 1. rewrite NE. rewrite <- L.
  assert (HN : here (List.length (pre ++ [n])) = if named "default" n then Some n else here (List.length pre)).
  { unfold here. rewrite FN', FN, rev_app_distr. cbn [rev app find]. destruct (named "default" n); reflexivity. }
  assert (NN : number_of ns start (List.length (pre ++ [n])) = (number_of ns start (List.length pre) + if named "module" n then 1 else 0)%Z).
  { unfold number_of. rewrite FN', FN, filter_app, app_length. cbn [filter]. destruct (named "module" n); cbn [List.length]; lia. }
  pose proof (IH _ E') as IH'. cbn [read_nodes]. destruct (is_elem n) eqn:EL; cbn [negb].
  2: { assert (N1 : forall k, named k n = false) by (intros k0; unfold named; rewrite EL; apply andb_false_r). rewrite N1 in HN, NN |- *. cbn [app].
       rewrite HN, NN, Z.add_0_r in IH'. apply IH'. }
  assert (NV : forall k, named k n = String.eqb (Value n) k) by (intros k0; unfold named; rewrite EL; apply andb_true_r).
  rewrite !NV in HN. rewrite !NV in NN. rewrite !NV.
  destruct (String.eqb_spec (Value n) "default") as [D|D].
  - rewrite D in *. cbn [String.eqb Ascii.eqb Bool.eqb app] in *. rewrite HN, NN, Z.add_0_r in IH'. apply IH'.
  - rewrite HN, NN in IH'. destruct (String.eqb_spec (Value n) "module") as [M|M]; cbn [negb app].
    2: { rewrite Z.add_0_r in IH'. apply IH'. }
    cbn [read_nodes]. change (is_elem (in_full n (default_of ns (List.length pre)) (number_of ns start (List.length pre)))) with true.
    change (Value (in_full n (default_of ns (List.length pre)) (number_of ns start (List.length pre)))) with "module"%string. cbn [negb String.eqb Ascii.eqb Bool.eqb].
    rewrite read_full. destruct (read_module type b n (here (List.length pre)) (number_of ns start (List.length pre))) as [b'|x|]; [|reflexivity..]. cbn [rbind]. apply IH'.
Qed.
End Sections.

Lemma section_in_full : forall type attrs ch start b, starts (XElem "modules" attrs ch) start ->
  read_section type b (XElem "modules" attrs (written_out ch start)) = read_section type b (XElem "modules" attrs ch).
Proof.
  intros type attrs ch start b ST. unfold starts in ST. unfold read_section.
  change (getOptionalXMLAttribute (XElem "modules" attrs (written_out ch start)) "moduleIDStartCount" "0") with (getOptionalXMLAttribute (XElem "modules" attrs ch) "moduleIDStartCount" "0").
  rewrite ST. cbn [rbind children].
  assert (FD : FirstChildElement "default" (XElem "modules" attrs (written_out ch start)) = None).
  { unfold FirstChildElement. cbn [children]. destruct (find _ (written_out _ _)) as [e|] eqn:F; [|reflexivity]. apply find_some in F. destruct F as [F1 F2].
    apply in_flat_map in F1. destruct F1 as [i [_ F1]]. destruct (nth_error ch i) as [n|]; [|destruct F1]. destruct (named "module" n); [|destruct F1].
    destruct F1 as [<-|[]]. discriminate. }
  rewrite FD. pose proof (read_written type ch start ch [] eq_refl b) as R.
  assert (N0 : number_of ch start 0 = start) by (unfold number_of; cbn; lia). cbn [List.length] in R. rewrite N0 in R. exact R.
Qed.

(** ** A file *)
Lemma child_kind : forall c c', child_in_full c c' -> Value c' = Value c /\ is_elem c' = is_elem c.
Proof. intros c c' [[a [ch [start [-> [_ ->]]]]]|[_ ->]]; split; reflexivity. Qed.
Lemma child_found : forall k l l', Forall2 child_in_full l l' -> k <> "modules"%string ->
  find (fun c => String.eqb (Value c) k && is_elem c) l' = find (fun c => String.eqb (Value c) k && is_elem c) l.
Proof.
  intros k l l' F K. induction F as [|c c' l l' C F IH]; [reflexivity|]. cbn [find]. destruct (child_kind _ _ C) as [-> ->]. rewrite IH.
  destruct (String.eqb (Value c) k && is_elem c) eqn:E; [|reflexivity]. destruct C as [[a [ch [start [-> [_ ->]]]]]|[_ ->]]; [|reflexivity].
  cbn [Value is_elem] in E. rewrite andb_true_r in E. apply String.eqb_eq in E. congruence.
Qed.
Lemma child_others : forall k l l', Forall2 child_in_full l l' -> k <> "modules"%string ->
  filter (fun c => String.eqb (Value c) k) l' = filter (fun c => String.eqb (Value c) k) l.
Proof.
  intros k l l' F K. induction F as [|c c' l l' C F IH]; [reflexivity|]. cbn [filter]. destruct (child_kind _ _ C) as [-> _]. rewrite IH.
  destruct (String.eqb (Value c) k) eqn:E; [|reflexivity]. destruct C as [[a [ch [start [-> [_ ->]]]]]|[_ ->]]; [|reflexivity].
  cbn [Value] in E. apply String.eqb_eq in E. congruence.
Qed.
Lemma child_sections : forall type l l', Forall2 child_in_full l l' -> forall b,
  rfold (read_section type) (sections (filter (fun c => String.eqb (Value c) "modules") l')) b =
  rfold (read_section type) (sections (filter (fun c => String.eqb (Value c) "modules") l)) b.
Proof.
  intros type l l' F. induction F as [|c c' l l' C F IH]; intros b; [reflexivity|]. cbn [filter]. destruct (child_kind _ _ C) as [-> EE].
  destruct (String.eqb (Value c) "modules") eqn:E; [|apply IH]. cbn [sections]. rewrite EE. destruct (is_elem c) eqn:EL; [|reflexivity]. cbn [rfold].
  assert (R : read_section type b c' = read_section type b c).
  { destruct C as [[a [ch [start [-> [ST ->]]]]]|[_ ->]]; [apply section_in_full; exact ST | reflexivity]. }
  rewrite R. destruct (read_section type b c) as [b'| |]; [|reflexivity..]. cbn [rbind]. apply IH.
Qed.
Lemma file_in_full : forall at0 ch ch', Forall2 child_in_full ch ch' -> tpc_fromXML (XElem "detector" at0 ch') = tpc_fromXML (XElem "detector" at0 ch).
Proof.
  intros at0 ch ch' F. unfold tpc_fromXML, read_old, getChildElementValue, getOptionalChildElementValue, FirstChildElement, IterateChildren, params_from_xml, IterateChildren.
  cbn [is_elem children]. rewrite !(fun k => child_found k ch ch' F) by discriminate. rewrite (child_others "parameter" ch ch' F) by discriminate.
  destruct (rmap atof _); [|reflexivity..]. cbn [rbind]. destruct (match find _ ch with Some _ => _ | None => _ end); [|reflexivity..]. cbn [rbind].
  destruct (String.eqb _ ""); [reflexivity|]. destruct (type_of_name _) as [type| |]; [|reflexivity..]. cbn [rbind]. rewrite (child_sections type ch ch' F). reflexivity.
Qed.

(** a comment called "modules" hides the sections after it *)
Lemma sections_comment : forall pre s post, (forall c, In c pre -> is_elem c = true) -> s = "modules"%string ->
  sections (filter (fun c => String.eqb (Value c) "modules") (pre ++ XComment s :: post)) = sections (filter (fun c => String.eqb (Value c) "modules") pre).
Proof.
  intros pre s post H ->. rewrite filter_app. cbn [filter Value String.eqb Ascii.eqb Bool.eqb].
  assert (X : forall l r, (forall c, In c l -> is_elem c = true) -> sections (l ++ XComment "modules" :: r) = sections l).
  { induction l as [|c l IH]; intros r L; [reflexivity|]. cbn. rewrite (L c (or_introl eq_refl)). f_equal. apply IH. intros x X. apply L. right. exact X. }
  apply X. intros c C. apply filter_In in C. apply H. apply C.
Qed.
Lemma comment_hides : forall at0 pre post, (forall c, In c pre -> is_elem c = true) -> 
  tpc_fromXML (XElem "detector" at0 (pre ++ XComment "modules" :: post)) =
  tpc_fromXML (XElem "detector" at0 (pre ++ XComment "modules" :: filter (fun c => negb (named "modules" c)) post)).
Proof.
  intros at0 pre post H.
  assert (FF : forall k, k <> "modules"%string -> find (fun c => String.eqb (Value c) k && is_elem c) (pre ++ XComment "modules" :: filter (fun c => negb (named "modules" c)) post) =
     find (fun c => String.eqb (Value c) k && is_elem c) (pre ++ XComment "modules" :: post)).
  { intros k K. rewrite !find_app_or. destruct (find _ pre); [reflexivity|]. cbn [find Value is_elem]. rewrite andb_false_r.
    induction post as [|x post IH]; [reflexivity|]. cbn [filter]. unfold named at 1. destruct (String.eqb_spec (Value x) "modules") as [E|E]; destruct (is_elem x) eqn:EL; cbn [andb negb find].
    - rewrite IH, EL, E. destruct (String.eqb_spec "modules" k); [congruence | reflexivity].
    - rewrite IH, EL, andb_false_r. reflexivity.
    - rewrite EL, IH. reflexivity.
    - rewrite EL, IH. reflexivity. }
  assert (PP : filter (fun c => String.eqb (Value c) "parameter") (pre ++ XComment "modules" :: filter (fun c => negb (named "modules" c)) post) =
     filter (fun c => String.eqb (Value c) "parameter") (pre ++ XComment "modules" :: post)).
  { rewrite !filter_app. f_equal. cbn [filter Value String.eqb Ascii.eqb Bool.eqb]. clear. induction post as [|x post IH]; [reflexivity|]. cbn [filter]. unfold named at 1.
    destruct (String.eqb_spec (Value x) "modules") as [E|E]; destruct (is_elem x) eqn:EL; cbn [andb negb filter]; rewrite ?IH; [|reflexivity..]. rewrite E. reflexivity. }
  unfold tpc_fromXML, read_old, getChildElementValue, getOptionalChildElementValue, FirstChildElement, IterateChildren, params_from_xml, IterateChildren.
  cbn [is_elem children]. rewrite PP, !(fun k => FF k) by discriminate. rewrite !sections_comment by (assumption || reflexivity). reflexivity.
Qed.
