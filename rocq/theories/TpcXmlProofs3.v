(** Proofs about TPCs in files (C36): what comes back unchanged, and what does not come back. *)
From Coq Require Import ZArith List String Ascii Bool Reals Lia Lra.
From Verif Require Import Base BaseProofs RBase XmlModel XmlSpec XmlProofs NumModel NumSpec NumProofs HxModel HxSpec HxProofs
  ParamsModel ParamsSpec ParamsProofs ParXmlModel ParXmlSpec ParXmlProofs PadXmlModel PadXmlProofs PadXmlProofs2 TrkXmlSpec TrkXmlProofs
  TpcModuleModel TpcModel TpcXmlModel TpcXmlSpec TpcModuleProofs TpcModuleProofs2 TpcModuleProofs4 TpcProofs TpcXmlProofs TpcXmlProofs2.
From Verif Require TpcSpec.
Import TpcSpec.
Import ListNotations.
Open Scope list_scope.
Open Scope R_scope.

Notation params_after := ParamsSpec.after.

(** ** The kind of a layout is kept *)
Definition kind_name (p : layout2d) : string :=
  match p with LRect _ => "RectangularPadRowLayout" | LFps _ => "FixedPadSizeDiskLayout" | LFpa _ => "FixedPadAngleDiskLayout"
  | LVd _ => "VersatileDiskRowLayout" end.
Lemma lay_type_attr : forall p n, lay_toXML p = Ok n -> getXMLAttribute n "type" = Ok (kind_name p).
Proof.
  intros [l|l|l|l] n H; cbn [lay_toXML] in H.
  - unfold rect_toXML in H. cbv zeta in H. destruct (rect_row_elems _ _ _) as [rs| |]; try discriminate. cbn [rbind] in H. injection H as <-.
    fold (rect_pairs l). rewrite lookup by apply rect_pairs_ok. reflexivity.
  - injection H as <-. fold (fps_pairs l). rewrite lookup by apply fps_pairs_ok. reflexivity.
  - injection H as <-. fold (fpa_pairs l). rewrite lookup by apply fpa_pairs_ok. reflexivity.
  - injection H as <-. rewrite lookup by pairs. reflexivity.
Qed.
Lemma layout_kind : forall p q, layout_back p q -> kind_name q = kind_name p.
Proof.
  intros p q H. unfold layout_back in H. rewrite reload_lay in H. destruct (lay_toXML p) as [n| |] eqn:E; try discriminate. cbn [rbind] in H.
  unfold lay_fromXML in H. rewrite (lay_type_attr p n E) in H. cbn [rbind] in H.
  destruct p; cbn [kind_name String.eqb Ascii.eqb Bool.eqb] in *;
    [destruct (rect_fromXML n) | destruct (fps_fromXML n) | destruct (fpa_fromXML n) | destruct (vd_fromXML n)]; try discriminate; cbn in H; injection H as <-; reflexivity.
Qed.
Lemma layout_type : forall p q, layout_back p q -> lay_type q = lay_type p.
Proof. intros p q H. apply layout_kind in H. destruct p, q; try discriminate; reflexivity. Qed.

(** layouts alone in a file and in modules *)
Lemma reload_kind : forall {A} (to : A -> result xnode) from (C : A -> layout2d) l, (forall x y, C x = C y -> x = y) -> lay_toXML (C l) = to l ->
  (forall n, to l = Ok n -> lay_fromXML n = rmap C (from n)) -> forall l', layout_back (C l) (C l') <-> reload to from l = Ok l'.
Proof.
  intros A to from C l J T F l'. unfold layout_back. rewrite reload_lay. unfold reload. rewrite T. destruct (to l) as [n| |] eqn:E; cbn [rbind]; [|split; discriminate..].
  destruct (lay_element _ _ T) as [W [EL _]]. rewrite via_writable by assumption. cbn [rbind]. rewrite (F n eq_refl).
  destruct (from n) as [x| |]; cbn [rmap rbind]; [|split; discriminate..]. split; intros H; injection H as H; [f_equal; apply J; exact H | rewrite H; reflexivity].
Qed.
Lemma layouts_back : forall p q, layout_back p q <->
  match p, q with
  | LRect l, LRect l' => reload rect_toXML rect_fromXML l = Ok l'
  | LFps l, LFps l' => reload fps_toXML fps_fromXML l = Ok l'
  | LFpa l, LFpa l' => reload fpa_toXML fpa_fromXML l = Ok l'
  | LVd l, LVd l' => reload vd_toXML vd_fromXML l = Ok l'
  | _, _ => False
  end.
Proof.
  assert (X : forall p n, lay_toXML p = Ok n -> lay_fromXML n = match p with LRect _ => rmap LRect (rect_fromXML n) | LFps _ => rmap LFps (fps_fromXML n)
    | LFpa _ => rmap LFpa (fpa_fromXML n) | LVd _ => rmap LVd (vd_fromXML n) end).
  { intros p n H. unfold lay_fromXML. rewrite (lay_type_attr _ _ H). destruct p; reflexivity. }
  assert (R1 : forall l l', layout_back (LRect l) (LRect l') <-> reload rect_toXML rect_fromXML l = Ok l').
  { intros l. apply (reload_kind rect_toXML rect_fromXML LRect); [intros x y Q; congruence | reflexivity | intros n; apply (X (LRect l) n)]. }
  assert (R2 : forall l l', layout_back (LFps l) (LFps l') <-> reload fps_toXML fps_fromXML l = Ok l').
  { intros l. apply (reload_kind fps_toXML fps_fromXML LFps); [intros x y Q; congruence | reflexivity | intros n; apply (X (LFps l) n)]. }
  assert (R3 : forall l l', layout_back (LFpa l) (LFpa l') <-> reload fpa_toXML fpa_fromXML l = Ok l').
  { intros l. apply (reload_kind fpa_toXML fpa_fromXML LFpa); [intros x y Q; congruence | reflexivity | intros n; apply (X (LFpa l) n)]. }
  assert (R4 : forall l l', layout_back (LVd l) (LVd l') <-> reload vd_toXML vd_fromXML l = Ok l').
  { intros l. apply (reload_kind vd_toXML vd_fromXML LVd); [intros x y Q; congruence | reflexivity | intros n; apply (X (LVd l) n)]. }
  intros p q. destruct p as [l|l|l|l], q as [l'|l'|l'|l']; try (split; [intros H; pose proof (layout_kind _ _ H); discriminate | intros []]); [apply R1 | apply R2 | apply R3 | apply R4].
Qed.

(** ** Modules that come back *)
Lemma placing_last : forall m, last_offset (placing m) = (reread (fst (getOffset m)), reread (snd (getOffset m))) /\
  last_angle (placing m) = reread (getAngle m) /\ last_border (placing m) = reread (getBorderWidth m) /\
  last_z (placing m) = option_map reread (getZPosition m) /\ side_seen (placing m) = negative (last_z (placing m)).
Proof. intros m. unfold placing. destruct (getZPosition m) as [z|]; repeat split. Qed.

Lemma module_numbers : forall m p m' p', module_back m p m' p' ->
  getModuleID m' = getModuleID m /\ getTPCCoordinateType m' = getTPCCoordinateType m /\
  layout_back (m_layout m) (m_layout m') /\ 
  getOffset m' = (reread (fst (getOffset m)), reread (snd (getOffset m))) /\ getAngle m' = reread (getAngle m) /\
  getBorderWidth m' = reread (getBorderWidth m) /\ getZPosition m' = option_map reread (getZPosition m).
Proof.
  intros m p m' p' [q [f [Q [F1 [F2 [M C]]]]]]. destruct (module_getters _ _ _ _ _ _ M) as [G1 [G2 [G3 [G4 [G5 [G6 G7]]]]]].
  destruct (placing_last m) as [L1 [L2 [L3 [L4 _]]]]. rewrite G3, G4, G5, G6, G7, L1, L2, L3, L4. auto 7.
Qed.
Lemma call_module_freq : forall m c m', (forall f, c <> MFreq f) -> state_of (call_module m c) = Some m' -> m_freq m' = m_freq m.
Proof.
  intros m c m' N H. destruct c as [a b|z|a|b|f]; unfold call_module in H.
  - unfold setOffset in H. destruct (m_type m =? POLAR)%Z; [|destruct (m_type m =? CARTESIAN)%Z].
    + apply convert_core in H. apply H.
    + apply convert_core in H. apply H.
    + cbn in H. injection H as <-. reflexivity.
  - cbn in H. injection H as <-. reflexivity.
  - apply convert_core in H. apply H.
  - apply convert_core in H. apply H.
  - destruct (N f eq_refl).
Qed.
Lemma call_all_freq : forall cs m m', (forall f, ~ In (MFreq f) cs) -> call_all m cs = Some m' -> m_freq m' = m_freq m.
Proof.
  induction cs as [|c cs IH]; intros m m' N H; cbn in H; [congruence|].
  assert (X : exists x, state_of (call_module m c) = Some x /\ call_all x cs = Some m') by (destruct (call_module m c) as [x u|x u|]; try discriminate; exists x; split; [reflexivity | exact H | reflexivity | exact H]).
  destruct X as [x [X1 X2]]. rewrite (IH x m'); [|intros f I; apply (N f); right; exact I | exact X2].
  apply (call_module_freq m c); [intros f ->; apply (N f); left; reflexivity | exact X1].
Qed.
Lemma module_frequency : forall m p m' p', module_back m p m' p' -> one_digit (TpcModuleModel.getReadoutFrequency m') /\
  (TpcModuleModel.getReadoutFrequency m' = TpcModuleModel.getReadoutFrequency m <-> one_digit (TpcModuleModel.getReadoutFrequency m)).
Proof.
  intros m p m' p' [q [f [Q [F1 [F2 [[K M] C]]]]]]. assert (E : TpcModuleModel.getReadoutFrequency m' = f).
  { apply call_all_freq in M; [exact M|]. intros g. unfold placing. destruct (getZPosition m); cbn; intros H; repeat (destruct H as [H|H]; [discriminate|]); destruct H. }
  rewrite E. split; assumption.
Qed.
(** the numbers survive exactly if the number format keeps them *)
Lemma module_kept : forall m p m' p', module_back m p m' p' ->
  (getOffset m' = getOffset m /\ getAngle m' = getAngle m /\ getBorderWidth m' = getBorderWidth m /\ getZPosition m' = getZPosition m <-> kept_module m).
Proof.
  intros m p m' p' H. destruct (module_numbers _ _ _ _ H) as [_ [_ [_ [E1 [E2 [E3 E4]]]]]]. rewrite E1, E2, E3, E4. unfold kept_module, kept.
  destruct (getOffset m) as [a b]. cbn [fst snd]. unfold reread. split.
  - intros [H1 [H2 [H3 H4]]]. injection H1 as H1 H1'. repeat split; try assumption. intros z Z. rewrite Z in H4. cbn in H4. injection H4 as H4. exact H4.
  - intros [H1 [H2 [H3 [H4 H5]]]]. rewrite H1, H2. repeat split; try assumption. destruct (getZPosition m) as [z|]; [|reflexivity]. cbn. f_equal. apply H5. reflexivity.
Qed.

(** the module is where it was *)
Lemma asked_same : forall id p type f h m, module_made id p type f h m -> kept_module m -> asked type (placing m) = asked type h.
Proof.
  intros id p type f h m M [K1 [K2 [K3 [K4 K5]]]]. destruct (module_getters _ _ _ _ _ _ M) as [G1 [G2 [G3 [G4 [G5 [G6 G7]]]]]].
  destruct (placing_last m) as [L1 [L2 [L3 [L4 _]]]]. unfold asked. rewrite L1, L2, L4. unfold reread. unfold kept in *. rewrite K1, K2, K3, <- surjective_pairing, G4, G5.
  f_equal. rewrite <- G7. destruct (getZPosition m) as [z|]; [|reflexivity]. cbn [option_map]. rewrite (K5 z eq_refl). reflexivity.
Qed.
Lemma place_kept : forall id p type f h m ps m' ps', module_made id p type f h m -> side_settled p type h -> kept_module m ->
  module_back m ps m' ps' -> forall c0 c1, exists g g', localToGlobal m c0 c1 = Ok g /\ localToGlobal m' c0 c1 = Ok g' /\ point type g' = point type g.
Proof.
  intros id p type f h m ps m' ps' M S K [q [f' [Q [_ [_ [M' _]]]]]] c0 c1. destruct (module_getters _ _ _ _ _ _ M) as [G1 [G2 [G3 _]]].
  rewrite G1, G2 in M'. rewrite G3 in Q.
  destruct (local_to_global _ _ _ _ _ _ M S c0 c1) as [g [E1 E2]].
  assert (S' : side_settled q type (placing m)) by (left; apply placing_last).
  destruct (local_to_global _ _ _ _ _ _ M' S' c0 c1) as [g' [E3 E4]]. exists g, g'. split; [exact E1|]. split; [exact E3|].
  rewrite E2, E4, (asked_same _ _ _ _ _ _ M K), (layout_type _ _ Q). reflexivity.
Qed.
(** except that a module which was not mirrored is mirrored now *)
Lemma side_found : forall id p type f h m ps m' ps', module_made id p type f h m -> at_origin p type h -> side_seen h = false -> negative (last_z h) = true ->
  kept_module m -> module_back m ps m' ps' -> forall c0 c1, fst (point type (c0, c1)) <> 0 ->
  exists g', localToGlobal m c0 c1 = Ok (c0, c1) /\ localToGlobal m' c0 c1 = Ok g' /\ point type g' <> point type (c0, c1).
Proof.
  intros id p type f h m ps m' ps' M A S N K [q [f' [Q [_ [_ [M' _]]]]]] c0 c1 X. destruct (module_getters _ _ _ _ _ _ M) as [G1 [G2 [G3 _]]].
  rewrite G1, G2 in M'. rewrite G3 in Q. destruct (side_forgotten _ _ _ _ _ _ c0 c1 M A S N) as [E1 [_ E2]].
  assert (S' : side_settled q type (placing m)) by (left; apply placing_last).
  destruct (local_to_global _ _ _ _ _ _ M' S' c0 c1) as [g' [E3 E4]]. exists g'. split; [exact E1|]. split; [exact E3|].
  rewrite E4, (asked_same _ _ _ _ _ _ M K), (layout_type _ _ Q). intros E. apply E2; [exact X | symmetry; exact E].
Qed.

(** ** Modules that do not come back *)
Lemma read_nodes_bad : forall type x ms, In x ms -> is_elem x = true -> Value x = "module"%string ->
  (forall b de id b', read_module type b x de id <> Ok b') -> forall de id b b', read_nodes type ms de id b <> Ok b'.
Proof.
  intros type x ms I E V B. induction ms as [|y ms IH]; intros de id b b' H; [destruct I|]. cbn [read_nodes] in H. destruct I as [->|I].
  - rewrite E, V in H. cbn [negb String.eqb Ascii.eqb Bool.eqb] in H. destruct (read_module type b x de id) as [b1| |] eqn:R; try discriminate. apply (B _ _ _ _ R).
  - destruct (is_elem y); cbn [negb] in H; [|apply (IH I _ _ _ _ H)]. destruct (String.eqb (Value y) "default"); [apply (IH I _ _ _ _ H)|].
    destruct (String.eqb (Value y) "module"); cbn [negb] in H; [|apply (IH I _ _ _ _ H)].
    destruct (read_module type b y de id) as [b1| |]; try discriminate. cbn [rbind] in H. apply (IH I _ _ _ _ H).
Qed.
(** what a TPC is loaded from *)
Lemma written_all : forall w mp ms, rall (fun a => module_toXML (w_heap w a, params_after (mp a))) (getModules (w_tpc w)) = Ok ms ->
  Forall2 (written_as (w_heap w) (fun a => params_after (mp a))) (getModules (w_tpc w)) ms.
Proof.
  intros w mp ms MS. apply rall_forall2 in MS. eapply forall2_mono; [|exact MS]. intros a x E. cbv beta in E. rewrite module_element in E by apply after_sorted.
  destruct (lay_toXML (m_layout (w_heap w a))) as [lay| |] eqn:L; try discriminate. cbn in E. injection E as <-. exists lay. split; [exact L | reflexivity].
Qed.
Lemma written_elements : forall h mp A ms, Forall2 (written_as h (fun a => params_after (mp a))) A ms -> (forall a, In a A -> storable (params_after (mp a))) ->
  forall x, In x ms -> writable x /\ is_elem x = true /\ Value x = "module"%string.
Proof.
  intros h mp A ms FW SM x I. induction FW as [|a y A ms [lay [L ->]] F IH]; [destruct I|]. destruct I as [<-|I].
  - destruct (lay_element _ _ L) as [W [E V]]. pose proof (SM a (or_introl eq_refl)) as ST.
    destruct (module_writable (h a) (params_after (mp a)) lay (after_sorted _) (storable_text _ ST) W E V) as [W1 E1].
    split; [exact W1|]. split; [exact E1 | reflexivity].
  - apply IH; [intros b B; apply SM; right; exact B | exact I].
Qed.
Lemma tpc_reload_is : forall w mp hp ty ms, storable (params_after hp) -> (forall a, In a (getModules (w_tpc w)) -> storable (params_after (mp a))) ->
  type_name (getCoordinateType (w_tpc w)) = Ok ty -> rall (fun a => module_toXML (w_heap w a, params_after (mp a))) (getModules (w_tpc w)) = Ok ms ->
  reload tpc_toXML tpc_fromXML (mkTO w (fun a => params_after (mp a)) (params_after hp)) =
    rmap (fun b => mkTO (mkW (fst (fst b)) (snd (fst b))) (snd b) (back (params_after hp)))
      (read_nodes (getCoordinateType (w_tpc w)) ms None 0 (new_tpc_obj (reread (getMaxDriftLength (w_tpc w))) (getCoordinateType (w_tpc w)))).
Proof.
  intros w mp hp ty ms SP SM TN MS. pose proof (written_elements _ _ _ _ (written_all _ _ _ MS) SM) as MI.
  unfold reload. rewrite (tpc_element _ _ _ ty TN) by apply after_sorted. rewrite MS. cbn [rmap rbind].
  rewrite via_writable; [|eapply tpc_writable; [exact TN | | apply after_sorted | apply storable_text; exact SP | apply tpc_pairs_ok] | reflexivity].
  - cbn [rbind]. rewrite (tpc_read _ _ _ _ _ _ TN); [reflexivity | apply after_sorted | apply storable_text; exact SP | intros x X; split; apply (MI x X)].
  - intros x X. split; apply (MI x X).
Qed.
Lemma tpc_reload_needs : forall w mp hp o, 
  reload tpc_toXML tpc_fromXML (mkTO w (fun a => params_after (mp a)) (params_after hp)) = Ok o ->
  exists ty ms, type_name (getCoordinateType (w_tpc w)) = Ok ty /\ rall (fun a => module_toXML (w_heap w a, params_after (mp a))) (getModules (w_tpc w)) = Ok ms.
Proof.
  intros w mp hp o H. unfold reload in H. destruct (tpc_toXML _) as [n| |] eqn:E; try discriminate. clear H. unfold tpc_toXML in E. cbn [to_world to_mpar to_par] in E. cbv zeta in E.
  destruct (type_name (getCoordinateType (w_tpc w))) as [ty| |]; try discriminate. cbn [rbind] in E.
  destruct (rall _ (getModules (w_tpc w))) as [ms| |] eqn:M; try discriminate. exists ty, ms. split; reflexivity.
Qed.
Lemma tpc_reloaded : forall w mp hp o, storable (params_after hp) -> (forall a, In a (getModules (w_tpc w)) -> storable (params_after (mp a))) ->
  reload tpc_toXML tpc_fromXML (mkTO w (fun a => params_after (mp a)) (params_after hp)) = Ok o ->
  exists ms, Forall2 (written_as (w_heap w) (fun a => params_after (mp a))) (getModules (w_tpc w)) ms /\ known_type (getCoordinateType (w_tpc w)) /\
    rmap (fun b => mkTO (mkW (fst (fst b)) (snd (fst b))) (snd b) (back (params_after hp)))
      (read_nodes (getCoordinateType (w_tpc w)) ms None 0 (new_tpc_obj (reread (getMaxDriftLength (w_tpc w))) (getCoordinateType (w_tpc w)))) = Ok o.
Proof.
  intros w mp hp o SP SM H. destruct (tpc_reload_needs _ _ _ _ H) as [ty [ms [TN MS]]]. exists ms.
  split; [apply written_all; exact MS|]. split; [apply (type_name_text _ _ TN)|].
  rewrite (tpc_reload_is w mp hp ty ms SP SM TN MS) in H. exact H.
Qed.

Lemma written_in : forall h mp A ms a, Forall2 (written_as h mp) A ms -> In a A ->
  exists lay, lay_toXML (m_layout (h a)) = Ok lay /\ In (module_elem (h a) (mp a) lay) ms.
Proof.
  intros h mp A ms a F I. induction F as [|b y A ms [lay [L ->]] F IH]; [destruct I|]. destruct I as [->|I].
  - exists lay. split; [exact L | left; reflexivity].
  - destruct (IH I) as [lay' [L' I']]. exists lay'. split; [exact L' | right; exact I'].
Qed.
Lemma bad_module : forall w mp hp a, storable (params_after hp) -> (forall a, In a (getModules (w_tpc w)) -> storable (params_after (mp a))) ->
  In a (getModules (w_tpc w)) ->
  (forall lay de id r, lay_toXML (m_layout (w_heap w a)) = Ok lay ->
     module_fromXML (module_elem (w_heap w a) (params_after (mp a)) lay) de (getCoordinateType (w_tpc w)) id <> Ok r) ->
  forall o, reload tpc_toXML tpc_fromXML (mkTO w (fun a => params_after (mp a)) (params_after hp)) <> Ok o.
Proof.
  intros w mp hp a SP SM I B o H. destruct (tpc_reloaded _ _ _ _ SP SM H) as [ms [F [_ R]]].
  destruct (written_in _ _ _ _ a F I) as [lay [L IN]].
  destruct (read_nodes _ ms None 0 _) as [b'| |] eqn:E; try discriminate. revert E.
  apply (read_nodes_bad _ (module_elem (w_heap w a) (params_after (mp a)) lay)); [exact IN | reflexivity | reflexivity|].
  intros [[h t] m] de id b1 X. unfold read_module in X. destruct (_ && _)%bool; [|discriminate].
  destruct (module_fromXML _ de _ id) as [r| |] eqn:Y; try discriminate. exact (B lay de id r L Y).
Qed.

Lemma own_tag : forall m ps lay de n x, sorted_params ps -> text_ok_params ps -> n <> "parameter"%string ->
  FirstChildElement n (XElem "module" (attrs_of []) (module_fixed m lay)) = Some x -> tag (module_elem m ps lay) de n = Some x.
Proof. intros m ps lay de n x S T N E. unfold tag, module_elem. rewrite det_child, E by assumption. reflexivity. Qed.

Lemma fixed_angle_lost : forall w mp hp a l, storable (params_after hp) -> (forall a, In a (getModules (w_tpc w)) -> storable (params_after (mp a))) ->
  In a (getModules (w_tpc w)) -> m_layout (w_heap w a) = LFpa l ->
  forall o, reload tpc_toXML tpc_fromXML (mkTO w (fun a => params_after (mp a)) (params_after hp)) <> Ok o.
Proof.
  intros w mp hp a l SP SM I ML. apply (bad_module w mp hp a SP SM I). intros lay de id r L H.
  pose proof (storable_text _ (SM a I)) as T. pose proof (after_sorted (mp a)) as S. destruct (lay_element _ _ L) as [_ [E V]].
  unfold module_fromXML in H. destruct (match tag _ de "moduleID" with Some e => get_int e "value" | None => Ok id end) as [i| |]; try discriminate. cbn [rbind] in H.
  destruct (required (tag _ de "readoutFrequency") "readoutFrequency") as [fe| |]; try discriminate. cbn [rbind] in H.
  destruct (get_int fe "value") as [fr| |]; try discriminate. cbn [rbind] in H.
  rewrite (own_tag _ _ _ de "PadRowLayout2D" lay S T) in H; [|discriminate|].
  2: { unfold FirstChildElement, module_fixed. cbn [children app find]. rewrite V, E. reflexivity. }
  cbn [required rbind] in H. unfold lay_fromXML in H. rewrite (lay_type_attr _ _ L), ML in H. cbn [rbind kind_name String.eqb Ascii.eqb Bool.eqb] in H.
  assert (X : forall q, fpa_fromXML lay <> Ok q).
  { intros q Q. rewrite ML in L. cbn [lay_toXML] in L. injection L as <-. fold (fpa_pairs l) in Q. unfold fpa_fromXML in Q.
    unfold get_int in Q. rewrite (no_attr _ _ _ "nPadsInRow") in Q by (apply fpa_pairs_ok || reflexivity).
    repeat match type of Q with rbind ?x _ = _ => destruct x; cbn [rbind] in Q; [|discriminate Q..] end. discriminate Q. }
  destruct (fpa_fromXML lay) as [q| |] eqn:F; try discriminate. exact (X q eq_refl).
Qed.

Lemma rectangle_lost : forall w mp hp a l, storable (params_after hp) -> (forall a, In a (getModules (w_tpc w)) -> storable (params_after (mp a))) ->
  In a (getModules (w_tpc w)) -> getCoordinateType (w_tpc w) = POLAR -> m_layout (w_heap w a) = LRect l ->
  forall o, reload tpc_toXML tpc_fromXML (mkTO w (fun a => params_after (mp a)) (params_after hp)) <> Ok o.
Proof.
  intros w mp hp a l SP SM I TP ML. apply (bad_module w mp hp a SP SM I). intros lay de id r L H. rewrite TP in H.
  pose proof (storable_text _ (SM a I)) as T. pose proof (after_sorted (mp a)) as S. destruct (lay_element _ _ L) as [_ [E V]].
  unfold module_fromXML in H. destruct (match tag _ de "moduleID" with Some e => get_int e "value" | None => Ok id end) as [i| |]; try discriminate. cbn [rbind] in H.
  destruct (required (tag _ de "readoutFrequency") "readoutFrequency") as [fe| |]; try discriminate. cbn [rbind] in H.
  destruct (get_int fe "value") as [fr| |]; try discriminate. cbn [rbind] in H.
  rewrite (own_tag _ _ _ de "PadRowLayout2D" lay S T) in H; [|discriminate|].
  2: { unfold FirstChildElement, module_fixed. cbn [children app find]. rewrite V, E. reflexivity. }
  cbn [required rbind] in H. destruct (lay_fromXML lay) as [q| |] eqn:Q; try discriminate. cbn [rbind] in H.
  assert (LT : lay_type q = CARTESIAN).
  { assert (B : layout_back (m_layout (w_heap w a)) q) by (unfold layout_back; rewrite reload_lay, L; exact Q). apply layout_type in B. rewrite B, ML. reflexivity. }
  rewrite (own_tag _ _ _ de "offset" (XElem "offset" (attrs_of (offset_pairs (fst (getOffset (w_heap w a))) (snd (getOffset (w_heap w a))))) []) S T) in H; [|discriminate|].
  2: { unfold FirstChildElement, module_fixed. cbn [children app find]. rewrite V, E. reflexivity. }
  cbn [if_there] in H. unfold get_double in H. rewrite !lookup in H by apply offset_pairs_ok. cbn [assoc offset_pairs String.eqb Ascii.eqb Bool.eqb rmap rbind] in H.
  set (x := atof _) in H. set (y := atof _) in H.
  assert (MM : module_made i q POLAR (IZR fr) [] (new_module i q POLAR (IZR fr))) by (split; [right|]; reflexivity).
  destruct (calls_not_implemented _ _ _ _ _ (MOffset x y) MM LT) as [m' [e C]]; [exact Logic.I|]. cbn [call_module] in C.
  rewrite C in H. discriminate.
Qed.

(** ** The drift length -1 *)
Lemma read_nodes_drift : forall type ms de id b b', read_nodes type ms de id b = Ok b' -> t_drift (snd (fst b')) = t_drift (snd (fst b)).
Proof.
  intros type. induction ms as [|y ms IH]; intros de id b b' H; cbn [read_nodes] in H; [congruence|].
  destruct (is_elem y); cbn [negb] in H; [|apply (IH _ _ _ _ H)]. destruct (String.eqb (Value y) "default"); [apply (IH _ _ _ _ H)|].
  destruct (String.eqb (Value y) "module"); cbn [negb] in H; [|apply (IH _ _ _ _ H)].
  destruct (read_module type b y de id) as [b1| |] eqn:R; try discriminate. cbn [rbind] in H. rewrite (IH _ _ _ _ H).
  destruct b as [[h t] mp]. unfold read_module in R. destruct (_ && _)%bool; [|discriminate]. destruct (module_fromXML _ _ _ _) as [r| |]; try discriminate. cbn [rbind] in R.
  unfold addModule in R. cbv zeta in R. destruct (negb _); [discriminate|]. destruct (id_find _ _); [discriminate|]. cbn [outcome rbind] in R. injection R as <-. reflexivity.
Qed.
Lemma drift_minus_one : forall w mp hp o, storable (params_after hp) -> (forall a, In a (getModules (w_tpc w)) -> storable (params_after (mp a))) ->
  getMaxDriftLength (w_tpc w) = -1 ->
  reload tpc_toXML tpc_fromXML (mkTO w (fun a => params_after (mp a)) (params_after hp)) = Ok o ->
  getMaxDriftLength (w_tpc (to_world o)) = 0.
Proof.
  intros w mp hp o SP SM D H. destruct (tpc_reloaded _ _ _ _ SP SM H) as [ms [_ [_ R]]].
  destruct (read_nodes _ ms None 0 _) as [b'| |] eqn:E; try discriminate. cbn [rmap] in R. injection R as <-. cbn [to_world w_tpc]. unfold getMaxDriftLength.
  rewrite (read_nodes_drift _ _ _ _ _ _ E). unfold new_tpc_obj. cbn [fst snd]. rewrite D. unfold reread. rewrite (whole_kept (-1)) by reflexivity.
  unfold new_tpc. assert (X : Reqb (-1) (-1) = true) by (apply Reqb_true; reflexivity). rewrite X. reflexivity.
Qed.

(** ** A coordinate type that is neither cartesian nor polar *)
Lemma unknown_type : forall o, ~ known_type (getCoordinateType (w_tpc (to_world o))) -> reload tpc_toXML tpc_fromXML o = Throw (EParse "coordinateType").
Proof.
  intros o K. unfold reload, tpc_toXML. cbv zeta. unfold type_name.
  destruct (Z.eqb_spec (getCoordinateType (w_tpc (to_world o))) CARTESIAN) as [E|]; [destruct K; left; exact E|].
  destruct (Z.eqb_spec (getCoordinateType (w_tpc (to_world o))) POLAR) as [E|]; [destruct K; right; exact E|]. reflexivity.
Qed.

(** ** Old files *)
Lemma old_file : forall at0 drift vel freq lay p, reread drift <> -1 -> is_elem lay = true -> Value lay = "PadRowLayout2D"%string -> lay_fromXML lay = Ok p ->
  exists w mp ps a, tpc_fromXML (old_tpc at0 drift vel freq lay) = Ok (mkTO w mp ps) /\ tpc_reached w /\
    getModules (w_tpc w) = [a] /\ getCoordinateType (w_tpc w) = lay_type p /\ getMaxDriftLength (w_tpc w) = reread drift /\
    getDriftVelocity (w_tpc w) = reread vel /\ getReadoutFrequency (w_heap w) (w_tpc w) = Ok (reread freq) /\
    getPadLayout (w_heap w) (w_tpc w) = Ok a /\ m_layout (w_heap w a) = p /\ getModuleID (w_heap w a) = 0%Z /\ ps = params_empty.
Proof.
  intros at0 drift vel freq lay p D E V L.
  assert (NT : new_tpc (reread drift) (lay_type p) = mkT [] [] [] (reread drift) (lay_type p) 0 [] (mkE 0 0 0 0) 0).
  { unfold new_tpc. destruct (Reqb (reread drift) (-1)) eqn:Q; [apply Reqb_true in Q; contradiction|].
    destruct (Z.eqb_spec (lay_type p) (-1)) as [X|]; [destruct p; discriminate|]. reflexivity. }
  set (w0 := mkW no_modules (new_tpc (reread drift) (lay_type p))).
  set (calls := [TLayout 0 (Some p); TVel (reread vel); TFreq (reread freq)]).
  assert (RUN : exists w, tpc_run w0 calls = Some w /\ tpc_fromXML (old_tpc at0 drift vel freq lay) = Ok (mkTO w (fun _ => params_empty) params_empty) /\
    t_mods (w_tpc w) = [0%Z] /\ t_type (w_tpc w) = lay_type p /\ t_drift (w_tpc w) = reread drift /\ t_vel (w_tpc w) = reread vel /\
    m_freq (w_heap w 0%Z) = reread freq /\ m_layout (w_heap w 0%Z) = p /\ m_id (w_heap w 0%Z) = 0%Z /\ m_angle (w_heap w 0%Z) = 0 /\ m_off0 (w_heap w 0%Z) = 0 /\ m_off1 (w_heap w 0%Z) = 0).
  { assert (B : forall n, (Value lay =? n)%string && is_elem lay = ("PadRowLayout2D" =? n)%string) by (intros; rewrite V, E; apply andb_true_r).
    unfold tpc_fromXML, getChildElementValue, getOptionalChildElementValue, old_tpc. cbn [is_elem].
    assert (F1 : FirstChildElement "maxDriftLength" (old_tpc at0 drift vel freq lay) = Some (value_elem "maxDriftLength" (print_double drift))) by reflexivity.
    assert (F2 : FirstChildElement "coordinateType" (old_tpc at0 drift vel freq lay) = None) by (unfold FirstChildElement, old_tpc; cbn [children find]; rewrite B; reflexivity).
    assert (F3 : FirstChildElement "PadRowLayout2D" (old_tpc at0 drift vel freq lay) = Some lay) by (unfold FirstChildElement, old_tpc; cbn [children find]; rewrite B; reflexivity).
    assert (F4 : FirstChildElement "driftVelocity" (old_tpc at0 drift vel freq lay) = Some (value_elem "driftVelocity" (print_double vel))) by reflexivity.
    assert (F5 : FirstChildElement "readoutFrequency" (old_tpc at0 drift vel freq lay) = Some (value_elem "readoutFrequency" (print_double freq))) by reflexivity.
    assert (PP : params_from_xml (old_tpc at0 drift vel freq lay) params_empty = Ok params_empty).
    { unfold params_from_xml, IterateChildren, old_tpc. cbn [children filter]. rewrite V. reflexivity. }
    fold (old_tpc at0 drift vel freq lay). rewrite F1, F2, PP.
    assert (VE : forall n x, getXMLAttribute (value_elem n (print_double x)) "value" = Ok (print_double x)).
    { intros n x. unfold value_elem. rewrite (lookup n (value_pairs (print_double x))) by apply value_double_ok. reflexivity. }
    rewrite VE. cbn [rbind rmap String.eqb]. unfold read_old, getChildElementValue. rewrite F3, F4, F5. cbn [required rbind].
    change (is_elem (old_tpc at0 drift vel freq lay)) with true. cbv iota. rewrite L, !VE. cbn [rbind rmap].
    fold (reread drift). fold (reread vel). fold (reread freq). unfold calls, w0. cbn [tpc_run call_tpc].
    rewrite NT. unfold setPadLayout. cbn [w_tpc t_mods t_type w_heap]. unfold addModule. cbv zeta. cbn [t_mods t_type t_map t_pos t_neg t_drift t_cathode t_ext t_vel List.length].
    assert (H0 : heap_set no_modules 0 (new_module 0 p (lay_type p) 0) 0%Z = new_module 0 p (lay_type p) 0) by reflexivity.
    rewrite H0. change (getTPCCoordinateType (new_module 0 p (lay_type p) 0)) with (lay_type p). rewrite Z.eqb_refl. cbn [negb id_find after outcome rbind].
    change (getZPosition (new_module 0 p (lay_type p) 0)) with (@None R). cbn [app w_tpc w_heap]. unfold setDriftVelocity. cbn [t_mods t_type t_map t_pos t_neg t_drift t_cathode t_ext t_vel after].
    unfold setReadoutFrequency. cbn [w_tpc w_heap t_mods]. unfold TpcModuleModel.setReadoutFrequency. cbn [outcome rbind after w_heap w_tpc].
    eexists. split; [reflexivity|]. split; [reflexivity|]. cbn [w_tpc w_heap t_mods t_type t_drift t_vel]. repeat split. }
  destruct RUN as [w [R [F [E1 [E2 [E3 [E4 [E5 [E6 [E7 [E8 [E9 E10]]]]]]]]]]]].
  exists w, (fun _ => params_empty), params_empty, 0%Z. split; [exact F|]. split; [exists (reread drift), (lay_type p), no_modules, calls; exact R|].
  split; [exact E1|]. split; [exact E2|]. split; [exact E3|]. split; [exact E4|]. unfold getReadoutFrequency, getPadLayout. rewrite E1.
  unfold TpcModuleModel.getReadoutFrequency, getAngle, getOffset. cbn [fst snd]. rewrite E5, E8, E9, E10.
  assert (X : Reqb 0 0 = true) by (apply Reqb_true; reflexivity). rewrite X. cbn [negb orb]. repeat split; assumption.
Qed.
