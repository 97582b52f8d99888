From Coq Require Import ZArith List String Ascii Bool Reals Lia Lra Sorting.Sorted.
From Verif Require Import Base BaseProofs RBase VecModel XmlModel XmlSpec XmlProofs XmlProofs3 NumModel NumSpec NumProofs HxModel HxSpec HxProofs
  ParamsModel ParamsSpec ParamsProofs ParXmlModel ParXmlSpec ParXmlProofs CaloModel CaloXmlModel CaloXmlProofs ZpModel FtdModel
  PadXmlModel PadXmlProofs PadXmlProofs2 TrkModel TrkXmlModel TrkXmlSpec TrkXmlProofs TrkXmlProofs2 TrkXmlProofs3 TrkXmlProofs4
  TpcModuleModel TpcModel TpcXmlModel TpcXmlSpec TpcXmlProofs TpcXmlProofs2 GearXmlModel GearXmlSpec GearXmlProofs GearXmlProofs2 GearXmlProofs3 GearXmlProofs4 GearXmlProofs5 GearXmlProofs6
  CopySpec CopyProofs.
Import ListNotations.
Open Scope list_scope.

(** ** Parameters read from an element that can be written *)
Lemma attr_in : forall a k v, Attribute k a = Some v -> exists w, In (k, w) a /\ v = c_str w.
Proof.
  intros a k v H. unfold Attribute in H. revert H. induction a as [|[k' w] a IH]; cbn [find_attr option_map]; [discriminate|]. intros H. destruct (String.eqb_spec k' k) as [->|N].
  - injection H as <-. exists w. split; [left; reflexivity | reflexivity].
  - destruct (IH H) as [x [I E]]. exists x. split; [right; exact I | exact E].
Qed.
Lemma attr_text : forall n k v, writable n -> getXMLAttribute n k = Ok v -> no_nul v /\ charref_free v.
Proof.
  intros n k v W H. unfold getXMLAttribute in H. destruct n as [e a ch| | | |]; try discriminate H. destruct (Attribute k a) as [w|] eqn:E; [|discriminate H]. injection H as ->.
  apply attr_in in E. destruct E as [x [I ->]]. inversion W as [? ? ? _ A _ _ _| |]; subst. destruct (A _ _ I) as [_ [N C]]. split; [apply c_str_nonul | apply charref_cstr; exact C].
Qed.
Lemma no_amp_charref : forall s, ~ contains_byte "&"%char s -> charref_free s.
Proof. intros s H [a [b ->]]. apply H. exists a, ("#x" +++ b). reflexivity. Qed.
Lemma name_no_amp : forall s, xml_name s -> ~ contains_byte "&"%char s.
Proof.
  intros s [c [t [-> [B H]]]] [a [b E]]. destruct a as [|a0 a]; cbn in E; injection E as -> E.
  - unfold start_byte in B. change (byte "&") with 38%Z in B. lia.
  - assert (N : name_byte (byte "&")) by (apply H; exists a, b; exact E). unfold name_byte, start_byte in N. change (byte "&") with 38%Z in N. lia.
Qed.
Lemma value_charref : forall n, writable n -> charref_free (Value n).
Proof.
  intros n W. inversion W as [e a ch X|s N C T|s N A B]; subst; cbn [Value]; [apply no_amp_charref, name_no_amp; exact X | exact C | apply no_amp_charref; exact A].
Qed.
Lemma value_text : forall n, writable n -> charref_free (param_value n) /\ no_nul (param_value n).
Proof.
  intros n W. assert (Z0 : charref_free "" /\ no_nul ""). { split; [intros [u [v Q]]; destruct u; discriminate Q | intros c [u [v Q]]; destruct u; discriminate Q]. }
  unfold param_value.
  assert (C : match children n with c :: _ => charref_free (c_str (Value c)) /\ no_nul (c_str (Value c)) | [] => True end).
  { destruct (children n) as [|c r] eqn:C; [exact I|]. assert (Wc : writable c). { destruct n; cbn in C; try discriminate C. subst. inversion W; subst. auto with datatypes. }
    split; [apply charref_cstr, value_charref; exact Wc | apply c_str_nonul]. }
  destruct (getXMLAttribute n "value") as [v| |] eqn:E; [destruct (attr_text n _ v W E); auto| |]; destruct (children n); assumption.
Qed.

Lemma ptype_dec : forall a b : ptype, {a = b} + {a <> b}.
Proof. decide equality. Qed.
Lemma storable_set : forall p k v, storable p -> no_nul k -> charref_free k -> text_ok v -> storable (do_set p (k, v)).
Proof.
  intros p k v S N C T t k' v' G. destruct (ptype_dec (type_of v) t) as [E|E].
  - destruct (string_dec k k') as [<-|NK].
    + subst t. rewrite do_get_set_same in G. injection G as <-. auto.
    + rewrite do_get_set_other in G by auto. apply (S t k' v' G).
  - rewrite do_get_set_other in G by auto. apply (S t k' v' G).
Qed.
Lemma atoi_int : forall s z, atoi s = Ok z -> is_int z.
Proof.
  intros s z H. unfold atoi in H. destruct (read_sign (skip_ws s)) as [neg t]. destruct (read_digits t 0 0) as [[v ?] ?].
  destruct ((-2147483648 <=? (if neg then - v else v)) && ((if neg then - v else v) <=? 2147483647))%Z eqn:B; [|discriminate H].
  injection H as <-. apply andb_true_iff in B. destruct B as [B1 B2]. apply Z.leb_le in B1. apply Z.leb_le in B2. unfold is_int. lia.
Qed.
Lemma atoi_ints : forall l zs, rall atoi l = Ok zs -> forall z, In z zs -> is_int z.
Proof.
  induction l as [|s l IH]; intros zs H z I; cbn [rall] in H; [injection H as <-; destruct I|].
  destruct (atoi s) as [x| |] eqn:E; cbn [rbind] in H; try discriminate H. destruct (rall atoi l) as [xs| |]; cbn [rbind] in H; try discriminate H. injection H as <-.
  destruct I as [<-|I]; [apply (atoi_int s); exact E | apply (IH xs eq_refl z I)].
Qed.
Lemma param_storable : forall p n q, writable n -> storable p -> read_param p n = Ok q -> storable q.
Proof.
  intros p n q W S H. destruct (value_text n W) as [VC VN]. unfold read_param in H.
  assert (TC : forall x, In x (tokenize (param_value n)) -> charref_free x).
  { intros x X. apply tokenize_part in X. destruct X as [u [v E]]. rewrite E in VC. eapply charref_part. exact VC. }
  destruct (tokenize (param_value n)) as [|t0 ts]; [injection H as <-; exact S|].
  destruct (getXMLAttribute n "name") as [k| |] eqn:KN; cbn [rbind] in H; try discriminate H. destruct (attr_text n _ k W KN) as [K1 K2].
  destruct (getXMLAttribute n "type") as [ty| |]; cbn [rbind] in H; try discriminate H.
  destruct (String.eqb ty "int"). { destruct (atoi t0) as [v| |] eqn:A; cbn in H; try discriminate H. injection H as <-. apply (storable_set p k (VInt v) S K1 K2). apply (atoi_int t0). exact A. }
  destruct (String.eqb ty "double"). { injection H as <-. apply (storable_set p k (VDouble (atof t0)) S K1 K2). exact I. }
  destruct (String.eqb ty "string"). { injection H as <-. apply (storable_set p k (VString t0) S K1 K2). apply TC. left. reflexivity. }
  destruct (String.eqb ty "IntVec"). { destruct (rall atoi (t0 :: ts)) as [v| |] eqn:A; cbn [rmap rbind] in H; try discriminate H. injection H as <-.
    apply (storable_set p k (VInts v) S K1 K2). exact (atoi_ints _ _ A). }
  destruct (String.eqb ty "DoubleVec"). { injection H as <-. apply (storable_set p k (VDoubles (map atof (t0 :: ts))) S K1 K2). exact I. }
  destruct (String.eqb ty "StringVec"). { injection H as <-. apply (storable_set p k (VStrings (t0 :: ts)) S K1 K2). exact TC. }
  injection H as <-. exact S.
Qed.
Lemma params_read_ok : forall n q, writable n -> params_from_xml n params_empty = Ok q -> params_ok q.
Proof.
  intros n q W H. split; [exact (params_read_calls n q H)|]. unfold params_from_xml in H.
  assert (WC : forall x, In x (IterateChildren "parameter" n) -> writable x).
  { intros x X. unfold IterateChildren in X. apply filter_In in X. destruct X as [X _]. destruct n; cbn in X; try (destruct X; fail). inversion W; subst. auto. }
  assert (S0 : storable params_empty) by (intros t k v G; destruct t; discriminate).
  revert WC S0 H. generalize (IterateChildren "parameter" n) params_empty. induction l as [|x l IH]; intros p WC S0 H; cbn in H; [injection H as <-; exact S0|].
  destruct (read_param p x) as [p1| |] eqn:R; cbn in H; try discriminate H. apply (IH p1); [intros y Y; apply WC; right; exact Y | | exact H].
  apply (param_storable p x p1 (WC x (or_introl eq_refl)) S0 R).
Qed.

(** ** Each kind of detector *)
Lemma good_node : forall {O} (write : O -> result xnode) read l o y, pairs_ok l -> good write read l o -> reload write read o = Ok y ->
  exists n, writable n /\ read n = Ok y.
Proof.
  intros O write read l o y P G R. pose proof (reload_good write read l o P G) as E. rewrite E in R. destruct (write o) as [n| |] eqn:W; cbn [rbind] in R; try discriminate R.
  exists n. split; [|exact R]. destruct G as [_ G]. destruct (G n W) as [ch [-> [N _]]]. apply node_writable; [reflexivity | exact P | exact N].
Qed.
Lemma calo_back_ok : forall o y, params_ok (snd o) -> reload calo_toXML calo_fromXML o = Ok y -> params_ok (snd y).
Proof.
  intros o y P R. destruct (calo_keeps o y P R) as [_ ->]. destruct P as [[h E] S]. split; [|apply back_storable; [rewrite E; apply after_sorted | exact S]].
  apply back_after; [rewrite E; apply after_sorted | apply storable_text; exact S].
Qed.
Lemma zp_back_ok : forall o y, params_ok (snd o) -> reload zp_toXML zp_fromXML o = Ok y -> params_ok (snd y).
Proof.
  intros o y P R. destruct (good_node _ _ _ _ _ no_pairs (zp_good o P) R) as [n [W E]]. unfold zp_fromXML in E. cbv zeta in E. peel E. injection E as <-. cbn [snd].
  eapply params_read_ok; eassumption.
Qed.
Lemma ftd_back_ok : forall o y, params_ok (snd o) -> reload ftd_toXML ftd_fromXML o = Ok y -> params_ok (snd y).
Proof.
  intros o y P R. destruct (good_node _ _ _ _ _ no_pairs (ftd_good o P) R) as [n [W E]]. unfold ftd_fromXML in E. cbv zeta in E. peel E. injection E as <-. cbn [snd].
  eapply params_read_ok; eassumption.
Qed.
Lemma si_back_ok : forall o y, params_ok (snd o) -> reload si_toXML si_fromXML o = Ok y -> params_ok (snd y).
Proof.
  intros o y P R. destruct (good_node _ _ _ _ _ no_pairs (si_good o P) R) as [n [W E]]. unfold si_fromXML in E. cbv zeta in E. peel E. injection E as <-. cbn [snd].
  eapply params_read_ok; eassumption.
Qed.
Lemma field_back_ok : forall o y, params_ok (snd o) -> reload field_toXML field_fromXML o = Ok y -> params_ok (snd y).
Proof.
  intros [b ps] y P R. destruct P as [[h E] S]. cbn [snd] in *. assert (SP : sorted_params ps) by (rewrite E; apply after_sorted).
  rewrite reload_field in R; [|exact SP | apply storable_text; exact S]. injection R as <-. cbn [snd].
  split; [apply back_after; [exact SP | apply storable_text; exact S] | apply back_storable; assumption].
Qed.
Lemma find_nothing : forall {A} (f : A -> bool) l, (forall x, In x l -> f x = false) -> find f l = None.
Proof. intros A f. induction l as [|x l IH]; intros H; [reflexivity|]. cbn. rewrite (H x (or_introl eq_refl)). apply IH. intros y Y. apply H. right. exact Y. Qed.
Lemma tp_back_none : forall o y, params_ok (snd o) -> reload tp_toXML tp_fromXML o = Ok y -> (forall l, In l (tp_layers (fst o)) -> tl_ok l) -> False.
Proof.
  intros o y P R L. rewrite (reload_good _ _ _ _ no_pairs (tp_good o P L)) in R. destruct o as [t ps]. cbn [fst snd] in *. destruct (ok_params ps P) as [S T].
  unfold tp_toXML in R. rewrite to_xml_elems in R by exact S. cbn [rbind] in R.
  match type of R with tp_fromXML ?n = _ => assert (N : FirstChildElement "layers" n = None) end.
  { apply find_nothing. cbn [children]. intros x X. cbn [app] in X. destruct X as [<-|[<-|X]]; [reflexivity..|]. apply in_app_or in X. destruct X as [X|X].
    - apply in_map_iff in X. destruct X as [l [<- _]]. reflexivity.
    - destruct (all_elems_in ps x S T X) as [_ [_ V]]. rewrite V. reflexivity. }
  unfold tp_fromXML in R. peel R. unfold iterate_of in *. rewrite N in *. discriminate.
Qed.

(** the TPC *)
Definition mods_ok (b : building) : Prop := forall a, In a (t_mods (snd (fst b))) -> params_ok (snd b a).
Lemma empty_params_ok : params_ok params_empty.
Proof. split; [exists []; reflexivity|]. intros t k v G. destruct t; discriminate. Qed.
Lemma added_mods : forall h t a t', outcome (addModule h t (Some a)) = Ok t' -> t_mods t' = t_mods t ++ [a].
Proof.
  intros h t a t' H. unfold addModule in H. destruct (negb _); [discriminate H|]. destruct (id_find _ _); [discriminate H|]. cbv zeta in H.
  repeat match type of H with context[match ?x with _ => _ end] => destruct x; try discriminate H end; cbn in H; injection H as <-; reflexivity.
Qed.

Lemma read_module_ok : forall type b me de id b', writable me -> mods_ok b -> read_module type b me de id = Ok b' -> mods_ok b'.
Proof.
  intros type [[h t] mp] me de id b' W M H. unfold read_module in H. destruct (_ && _)%bool; [|discriminate H].
  destruct (module_fromXML me de type id) as [o| |] eqn:R; cbn [rbind] in H; try discriminate H. cbv zeta in H.
  destruct (outcome _) as [t'| |] eqn:A; cbn [rbind] in H; try discriminate H. injection H as <-. apply added_mods in A.
  assert (P : params_ok (snd o)). { unfold module_fromXML in R. cbv zeta in R. peel R. injection R as <-. cbn [snd]. eapply params_read_ok; eassumption. }
  intros a I. cbn [fst snd] in *. destruct (Z.eqb_spec a (next_address t)) as [->|N]; [exact P|]. rewrite A in I. apply in_app_or in I. destruct I as [I|[<-|[]]]; [apply (M a I) | contradiction].
Qed.
Lemma read_nodes_ok : forall type ns de id b b', (forall x, In x ns -> writable x) -> mods_ok b -> read_nodes type ns de id b = Ok b' -> mods_ok b'.
Proof.
  intros type. induction ns as [|n ns IH]; intros de id b b' W M H; cbn [read_nodes] in H; [injection H as <-; exact M|].
  assert (W' : forall x, In x ns -> writable x) by (intros x X; apply W; right; exact X).
  destruct (negb (is_elem n)); [apply (IH _ _ _ _ W' M H)|]. destruct (String.eqb (Value n) "default"); [apply (IH _ _ _ _ W' M H)|].
  destruct (negb (String.eqb (Value n) "module")); [apply (IH _ _ _ _ W' M H)|].
  destruct (read_module type b n de id) as [b1| |] eqn:R; cbn [rbind] in H; try discriminate H. eapply IH; [exact W' | | exact H].
  apply (read_module_ok _ _ _ _ _ _ (W n (or_introl eq_refl)) M R).
Qed.
Lemma sections_ok : forall type l b b', (forall x, In x l -> writable x) -> mods_ok b -> rfold (read_section type) l b = Ok b' -> mods_ok b'.
Proof.
  intros type. induction l as [|x l IH]; intros b b' W M H; cbn [rfold] in H; [injection H as <-; exact M|].
  destruct (read_section type b x) as [b1| |] eqn:R; cbn [rbind] in H; try discriminate H. apply (IH b1); [intros y Y; apply W; right; exact Y | | exact H].
  unfold read_section in R. destruct (atoi _) as [st| |]; cbn [rbind] in R; try discriminate R. apply (read_nodes_ok _ _ _ _ _ _) in R; [exact R | | exact M].
  intros y Y. pose proof (W x (or_introl eq_refl)) as Wx. destruct x; cbn in Y; try (destruct Y; fail). inversion Wx; subst. auto.
Qed.
Lemma sections_in : forall l x, In x (sections l) -> In x l.
Proof. induction l as [|y l IH]; intros x I; [exact I|]. cbn in I. destruct (is_elem y); [|destruct I]. destruct I as [<-|I]; [left; reflexivity | right; apply IH; exact I]. Qed.
Lemma tpc_back_ok : forall o y, params_ok (to_par o) -> (forall a, In a (getModules (w_tpc (to_world o))) -> params_ok (to_mpar o a)) -> reload tpc_toXML tpc_fromXML o = Ok y ->
  params_ok (to_par y) /\ forall a, In a (getModules (w_tpc (to_world y))) -> params_ok (to_mpar y a).
Proof.
  intros o y P M R. destruct (good_node _ _ _ _ _ tpc_pairs_ok (tpc_good o P M) R) as [n [W E]]. unfold tpc_fromXML in E.
  destruct (rmap atof (getChildElementValue n "maxDriftLength")) as [d| |]; cbn [rbind] in E; try discriminate E.
  destruct (getOptionalChildElementValue n "coordinateType" "") as [ts| |]; cbn [rbind] in E; try discriminate E.
  match type of E with rbind ?X _ = _ => destruct X as [b| |] eqn:B; cbn [rbind] in E; try discriminate E end.
  destruct (params_from_xml n params_empty) as [ps| |] eqn:PS; cbn [rbind] in E; try discriminate E.
  assert (MB : mods_ok b).
  { destruct (String.eqb ts "").
    - unfold read_old in B. peel B. injection B as <-. intros ? _. exact empty_params_ok.
    - destruct (type_of_name ts) as [type| |]; cbn [rbind] in B; try discriminate B. apply sections_ok in B; [exact B | | intros ? []].
      intros x X. apply sections_in in X. unfold IterateChildren in X. apply filter_In in X. destruct X as [X _]. destruct n; cbn in X; try (destruct X; fail). inversion W; subst. auto. }
  destruct b as [[h t] mp]. injection E as <-. cbn [to_par to_world to_mpar w_tpc]. split; [eapply params_read_ok; eassumption | exact MB].
Qed.

(** ** The whole geometry *)
Lemma lands_twice : forall s o y, c_type (fst y) = c_type (fst o) -> lands (lands s o) y = lands s o.
Proof. intros s o y E. unfold lands. rewrite E. destruct s, (c_type (fst o)); reflexivity. Qed.
Lemma map_equal : forall {V} (a b : smap V), StronglySorted slt (sm_keys a) -> StronglySorted slt (sm_keys b) -> (forall k, sm_find k a = sm_find k b) -> a = b.
Proof.
  intros V. induction a as [|[k v] a IH]; intros b SA SB H.
  - destruct b as [|[k v] b]; [reflexivity|]. specialize (H k). cbn [sm_find] in H. rewrite String.eqb_refl in H. discriminate.
  - destruct b as [|[k' v'] b]; [specialize (H k); cbn [sm_find] in H; rewrite String.eqb_refl in H; discriminate|].
    pose proof SA as SA0. pose proof SB as SB0.
    cbn in SA. apply StronglySorted_inv in SA. destruct SA as [SA FA]. rewrite Forall_forall in FA.
    cbn in SB. apply StronglySorted_inv in SB. destruct SB as [SB FB]. rewrite Forall_forall in FB.
    assert (IN : forall (m : smap V) x w, sm_find x m = Some w -> In x (sm_keys m)).
    { induction m as [|[x0 w0] m IHm]; intros x w F; [discriminate|]. cbn [sm_find] in F. destruct (String.eqb_spec x x0) as [->|N]; [left; reflexivity | right; eapply IHm; exact F]. }
    assert (E : k = k').
    { pose proof (H k) as H1. pose proof (H k') as H2. cbn [sm_find] in H1, H2. rewrite String.eqb_refl in H1, H2.
      destruct (String.eqb_spec k k') as [E|N]; [exact E|]. destruct (String.eqb_spec k' k) as [E|_]; [congruence|].
      symmetry in H1. apply IN in H1. apply IN in H2. exfalso. apply (slt_irrefl k). apply (slt_trans k k'); [apply FA; exact H2 | apply FB; exact H1]. }
    subst k'. pose proof (H k) as H1. cbn [sm_find] in H1. rewrite String.eqb_refl in H1. injection H1 as <-. f_equal. apply IH; [exact SA | exact SB|].
    intros x. pose proof (H x) as Hx. cbn [sm_find] in Hx. destruct (String.eqb_spec x k) as [E|N]; [clear Hx; rewrite E | exact Hx].
    destruct (sm_find k a) as [u|] eqn:Ea; [apply IN in Ea; exfalso; apply (slt_irrefl k); apply FA; exact Ea|].
    destruct (sm_find k b) as [u|] eqn:Eb; [apply IN in Eb; exfalso; apply (slt_irrefl k); apply FB; exact Eb | reflexivity].
Qed.
Lemma file_same : forall g g', same_content g g' -> g_generic g' = g_generic g -> g_mat g' = g_mat g -> createXMLFile g' = createXMLFile g.
Proof.
  intros g g' (E1 & E2 & E3 & E4 & E5 & E6 & E7 & E8 & _ & _) EG EM. unfold createXMLFile, geometry_doc, zp_elem. rewrite E1, E2, E3, E6, E7, E8, EG, EM, !E5.
  assert (EC : rall (calo_elem g') calo_order = rall (calo_elem g) calo_order).
  { generalize calo_order. induction l as [|s l IH]; [reflexivity|]. cbn [rall]. unfold calo_elem at 1 3. rewrite E4, IH. reflexivity. }
  rewrite EC. reflexivity.
Qed.
Lemma generic_back : forall g, inv g -> texts_ok g -> forall k q, sm_find k (g_generic (final g)) = Some q -> exists p, sm_find k (g_generic g) = Some p /\ q = back p.
Proof.
  intros g I T k q. unfold final, add_mats. cbn [g_generic]. rewrite generics_at by (apply sorted_nodup; apply (inv_generic g I)).
  destruct (sm_find k (g_generic g)) as [p|] eqn:G; [intros H; injection H as <-; eauto|].
  rewrite (store_keeps g_generic), (store_keeps g_generic), (store_keeps g_generic) by reflexivity. kept g_generic. discriminate.
Qed.
Lemma back_ok : forall p, params_ok p -> params_ok (back p).
Proof.
  intros p [[h E] S]. assert (SP : sorted_params p) by (rewrite E; apply after_sorted). split; [|apply back_storable; assumption].
  destruct (ok_params p (conj (ex_intro _ h E) S)) as [S' T']. apply back_after; assumption.
Qed.
Lemma back_in_some : forall {O} (w : O -> result xnode) r a b y, back_in w r a b -> b = Some y -> exists x, a = Some x /\ reload w r x = Ok y.
Proof. intros O w r [x|] b y B E; cbn in B; [destruct B as [z [R E']]; exists x; split; [reflexivity | congruence] | congruence]. Qed.

Lemma settled : forall h file g1, let g := built h in texts_ok g -> all_settle g -> createXMLFile g = Ok file -> createGearMgr None (Some file) = SOk (Some g1) g1 ->
  texts_ok g1 /\ g_name g1 <> ""%string /\ (forall s, fits g1 s) /\ all_survive g1.
Proof.
  intros h file g1 g T A C L. assert (I : inv g) by apply inv_built. destruct (slots_loaded h file g1 T C L) as [SL CL]. fold g in SL, CL.
  assert (EF : g1 = final g) by (apply load_create in L; apply (file_loads g file I T C) in L; apply L).
  assert (GB : forall k q, sm_find k (g_generic g1) = Some q -> exists p, sm_find k (g_generic g) = Some p /\ q = back p) by (rewrite EF; apply generic_back; assumption).
  destruct SL as (N & B1 & B2 & B3 & B4 & B5 & B6 & _ & B8). destruct T as (T1 & T2 & T3 & T4 & T5 & T6 & T7 & T8 & T9 & T10).
  destruct A as (A1 & A2 & A3 & A4 & A5 & A6 & A7 & A8 & A9).
  split; [|split; [|split]].
  - split; [|split; [|split; [|split; [|split; [|split; [|split; [|split; [|split]]]]]]]].
    + rewrite N. destruct (String.eqb (g_name g) ""); [|exact T1]. split; [|apply no_amp_charref; intros [u [v E]]; repeat (destruct u as [|? u]; [discriminate E|]; injection E as _ E); destruct u; discriminate E].
      intros c [u [v E]] Z. repeat (destruct u as [|? u]; [injection E as <- _; cbv in Z; discriminate Z|]; injection E as _ E). destruct u; discriminate E.
    + intros y E. destruct (back_in_some _ _ _ _ _ B1 E) as [x [X R]]. apply (field_back_ok x y (T2 x X) R).
    + intros y E. destruct (back_in_some _ _ _ _ _ B2 E) as [x [X R]]. destruct (T3 x X) as [P M]. apply (tpc_back_ok x y P M R).
    + intros s y E. apply CL in E. destruct E as [t [o [G [_ [R _]]]]]. apply (calo_back_ok o y (T4 t o G) R).
    + intros s y E. destruct (back_in_some _ _ _ _ _ (B3 s) E) as [x [X R]]. apply (zp_back_ok x y (T5 s x X) R).
    + intros y E. destruct (back_in_some _ _ _ _ _ B4 E) as [x [X R]]. apply (ftd_back_ok x y (T6 x X) R).
    + intros y E. destruct (back_in_some _ _ _ _ _ B5 E) as [x [X R]]. exfalso. destruct (T7 x X) as [P K]. apply (tp_back_none x y P R K).
    + intros y E. destruct (back_in_some _ _ _ _ _ B6 E) as [x [X R]]. apply (si_back_ok x y (T8 x X) R).
    + intros k q E. destruct (GB k q E) as [p [G ->]]. destruct (T9 k p G) as [K P]. split; [exact K | apply back_ok; exact P].
    + intros k m E. destruct (back_in_some _ _ _ _ _ (B8 k) E) as [x [X R]]. apply (T10 k x X).
  - rewrite N. destruct (String.eqb_spec (g_name g) "") as [E|E]; [discriminate | exact E].
  - intros s y E. apply CL in E. destruct E as [t [o [G [<- [R _]]]]]. apply lands_twice. apply (calo_keeps o y (T4 t o G) R).
  - split; [|split; [|split; [|split; [|split; [|split; [|split; [|split]]]]]]].
    + intros y E. destruct (back_in_some _ _ _ _ _ B1 E) as [x [X R]]. apply (A1 x X y R).
    + intros y E. destruct (back_in_some _ _ _ _ _ B2 E) as [x [X R]]. apply (A2 x X y R).
    + intros s y E. apply CL in E. destruct E as [t [o [G [_ [R _]]]]]. apply (A3 t o G y R).
    + intros s y E. destruct (back_in_some _ _ _ _ _ (B3 s) E) as [x [X R]]. apply (A4 s x X y R).
    + intros y E. destruct (back_in_some _ _ _ _ _ B4 E) as [x [X R]]. apply (A5 x X y R).
    + intros y E. destruct (back_in_some _ _ _ _ _ B5 E) as [x [X R]]. apply (A6 x X y R).
    + intros y E. destruct (back_in_some _ _ _ _ _ B6 E) as [x [X R]]. apply (A7 x X y R).
    + intros k q E. destruct (GB k q E) as [p [G ->]]. destruct (T9 k p G) as [_ P]. destruct (ok_params _ (back_ok p P)) as [S TT].
      destruct (save_load (back p) S TT) as [text [W Rd]]. exists text. split; [exact W|]. rewrite Rd. f_equal. apply back_back; [apply (proj1 (ok_params p P)) | apply (A8 k p G)].
    + intros k m E. destruct (back_in_some _ _ _ _ _ (B8 k) E) as [x [X R]]. apply (A9 k x X m R).
Qed.

Lemma settled_file : forall h file g1, let g := built h in texts_ok g -> all_settle g -> createXMLFile g = Ok file -> createGearMgr None (Some file) = SOk (Some g1) g1 ->
  exists file1 g2, createXMLFile g1 = Ok file1 /\ createGearMgr None (Some file1) = SOk (Some g2) g2 /\ same_content g1 g2 /\ createXMLFile g2 = Ok file1.
Proof.
  intros h file g1 g T A C L. destruct (settled h file g1 T A C L) as (T1 & N1 & F1 & S1).
  apply loads_iff in L. destruct L as [root [cs [_ [_ E1]]]]. subst g1.
  destruct (all_same cs T1 N1 F1 S1) as [file1 [g2 [C1 [L1 SC]]]]. exists file1, g2. split; [exact C1|]. split; [exact L1|]. split; [exact SC|].
  apply loads_iff in L1. destruct L1 as [root2 [cs2 [_ [_ E2]]]]. rewrite <- C1. apply file_same; [exact SC|..].
  - apply map_equal; [rewrite E2; apply (inv_generic _ (inv_built cs2)) | apply (inv_generic _ (inv_built cs)) | apply SC].
  - apply map_equal; [rewrite E2; apply (inv_mat _ (inv_built cs2)) | apply (inv_mat _ (inv_built cs)) | apply SC].
Qed.
