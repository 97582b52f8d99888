(** Property theorems for C36: the TPC in files, and C68: modules that leave things out *)
From Coq Require Import ZArith Reals List String Ascii Bool Lia Lra.
From Verif Require Import Base RBase XmlModel XmlSpec XmlProofs NumModel NumSpec NumProofs HxModel HxSpec HxProofs ParamsModel ParamsSpec
  ParXmlModel ParXmlSpec ParXmlProofs PadXmlModel PadXmlProofs PadXmlProofs2 TrkXmlSpec TrkXmlProofs TpcModuleModel TpcModel TpcXmlModel TpcXmlSpec
  TpcModuleProofs TpcModuleProofs2 TpcModuleProofs4 TpcProofs TpcXmlProofs TpcXmlProofs2 TpcXmlProofs3 TpcXmlProofs4.
From Verif Require TpcSpec PropPadXml RectModel FpsModel FpsProofs FpsProofs3.
Import TpcSpec.
Import ListNotations.
Open Scope list_scope.
Open Scope R_scope.

Lemma whole : forall z : Z, (Z.abs z < 10 ^ 10)%Z -> kept (IZR z).
Proof. intros z Z. apply whole_kept. exact Z. Qed.
Example no_params_storable : storable (params_after []).
Proof. intros t k v G. destruct t; discriminate. Qed.

(** A TPC with one module at (3,4), turned by 2, on the negative side and with a border, meets the
    hypotheses of the theorems below: *)
Definition ex_history : list mcall := [MZ (-5); MAngle 2; MBorder 1; MOffset 3 4].
Lemma one_module_tpc : forall type p q, known_type type -> layout_back p q -> mountable type q 1 -> lay_extent q = lay_extent p ->
  exists w m, module_made 7 p type 8 ex_history m /\ side_settled p type ex_history /\ tpc_reached w /\ getCoordinateType (w_tpc w) = type /\
    getModules (w_tpc w) = [1%Z] /\ w_heap w 1%Z = m /\ getMaxDriftLength (w_tpc w) = 400 /\ reread (getMaxDriftLength (w_tpc w)) <> -1 /\
    (getNModules (w_tpc w) < 2147483648)%Z /\ (forall a, In a (getModules (w_tpc w)) -> module_saved (w_heap w a) /\ storable (params_after [])) /\
    kept_module m /\ one_digit (TpcModuleModel.getReadoutFrequency m).
Proof.
  intros type p q K B MO EX. pose proof (layout_type _ _ B) as LT.
  destruct (history_exists 7 p type 8 ex_history K) as [m M].
  { intros T. destruct MO as [MO _]. rewrite <- LT. apply MO. exact T. }
  { intros T. destruct MO as [_ MO]. rewrite <- EX. rewrite LT in MO. destruct (MO T) as [H1 H2]. split; [exact H1|]. intros b I. cbn in I. destruct I as [I|[I|[I|[I|[]]]]]; try discriminate I. injection I as <-. lra. }
  destruct (module_getters _ _ _ _ _ _ M) as [G1 [G2 [G3 [G4 [G5 [G6 G7]]]]]].
  assert (A : exists t, addModule (fun _ => m) (new_tpc 400 type) (Some 1%Z) = SOk t tt /\ t_mods t = [1%Z] /\ t_type t = type /\ t_drift t = 400).
  { unfold addModule, new_tpc. destruct (Reqb_spec 400 (-1)) as [X|_]; [lra|]. destruct (Z.eqb_spec type (-1)) as [X|_]; [destruct K; subst; discriminate|]. rewrite G2, G1, G7.
    cbn [t_type negb]. rewrite Z.eqb_refl. cbn -[Rleb]. eexists. split; [reflexivity|]. cbn. auto. }
  destruct A as [t [A1 [A2 [A3 A4]]]]. exists (mkW (fun _ => m) t), m. split; [exact M|].
  split. { right. unfold at_origin. intros [_ [X _]]. cbn in X. lra. }
  split. { exists 400, type, (fun _ => m), [TAdd (Some 1%Z)]. cbn [tpc_run call_tpc w_heap w_tpc]. rewrite A1. reflexivity. }
  cbn [w_tpc w_heap]. unfold getCoordinateType, getModules, getMaxDriftLength, getNModules. rewrite A2, A3, A4.
  assert (KM : kept_module m).
  { unfold kept_module. rewrite G4, G5, G6, G7. cbn. repeat split; try (apply whole; reflexivity). intros z Z. injection Z as <-. apply whole. reflexivity. }
  repeat (split; [reflexivity|]). split. { unfold reread. rewrite (whole 400) by reflexivity. lra. }
  split; [cbn; lia|]. split.
  { intros a _. split; [|exact no_params_storable]. split; [rewrite G1; unfold is_int; lia|]. exists q. rewrite G3. split; [exact B|]. rewrite G2.
    unfold reread. destruct KM as [_ [_ [_ [KB _]]]]. unfold kept in KB. rewrite KB, G6. exact MO. }
  split; [exact KM|]. exists 8%Z. split; [lia|].
  destruct M as [_ M]. apply (call_all_freq ex_history (new_module 7 p type 8) m) in M; [exact M|]. intros f I. cbn in I. intuition discriminate.
Qed.
(** a rectangle of two rows of pads in a cartesian TPC, *)
Example cartesian_case : exists p q, layout_back p q /\ mountable CARTESIAN q 1 /\ lay_extent q = lay_extent p /\ exists l, p = LRect l /\ RectModel.getNRows l = 2%Z.
Proof.
  destruct PropPadXml.rect_case as [l [HB [HC [HN [HK [K0 K1]]]]]].
  destruct (rect_survives 0 100 0 _ l HB HC K0 K1 K0 HK ltac:(rewrite HN; reflexivity)) as [l' [R [S _]]]. exists (LRect l), (LRect l').
  split; [apply layouts_back; exact R|].
  split; [split; intros X; discriminate|]. split; [|exists l; split; [reflexivity | exact HN]]. destruct S as [S _]. cbn [lay_extent].
  unfold RectModel.getPlaneExtent in S. injection S as S1 S2 S3 S4. rewrite S1, S2, S3, S4. reflexivity.
Qed.
(** and a disk in a polar TPC. *)
Example polar_case : exists p q, layout_back p q /\ mountable POLAR q 1 /\ lay_extent q = lay_extent p.
Proof.
  destruct PropPadXml.disk_case as [l [HM [HA HK]]]. exists (LFps l), (LFps (FpsModel.fps_clone l)). 
  split; [apply layouts_back; apply (fps_kept_iff _ _ _ HM); exact HK|].
  split; [|reflexivity]. split; [reflexivity|]. intros _. pose proof (FpsProofs3.fps_clone_rep _ _ (FpsProofs.fps_made_rep _ _ _ HM)) as HR. destruct HR. cbn [lay_extent e0 e1].
  rewrite fr_rMin, fr_rMax. cbn. lra.
Qed.

(** A TPC whose modules can be written and mounted comes back as a TPC with the same coordinate type and, in the same order, what comes back of each module; the drift length is rounded to ten digits and the drift velocity is lost. *)
Theorem C36_comes_back : forall w mp hp, tpc_reached w -> let t := w_tpc w in
  known_type (getCoordinateType t) -> reread (getMaxDriftLength t) <> -1 -> storable (ParamsSpec.after hp) ->
  (getNModules t < 2147483648)%Z ->
  (forall a, In a (getModules t) -> module_saved (w_heap w a) /\ storable (ParamsSpec.after (mp a))) ->
  exists w' mp' ps', reload tpc_toXML tpc_fromXML (mkTO w (fun a => ParamsSpec.after (mp a)) (ParamsSpec.after hp)) = Ok (mkTO w' mp' ps') /\
    tpc_reached w' /\ let t' := w_tpc w' in
    getNModules t' = getNModules t /\ getCoordinateType t' = getCoordinateType t /\
    getMaxDriftLength t' = reread (getMaxDriftLength t) /\ getDriftVelocity t' = 0 /\ came_back (ParamsSpec.after hp) ps' /\
    forall i a, nth_error (getModules t) i = Some a -> exists a', nth_error (getModules t') i = Some a' /\
      module_back (w_heap w a) (ParamsSpec.after (mp a)) (w_heap w' a') (mp' a').
Proof. exact tpc_comes_back. Qed.
Print Assumptions C36_comes_back.

(** The layout of a module comes back as the layout alone does (C35). *)
Theorem C36_layouts : forall p q, layout_back p q <->
  match p, q with
  | LRect l, LRect l' => reload rect_toXML rect_fromXML l = Ok l'
  | LFps l, LFps l' => reload fps_toXML fps_fromXML l = Ok l'
  | LFpa l, LFpa l' => reload fpa_toXML fpa_fromXML l = Ok l'
  | LVd l, LVd l' => reload vd_toXML vd_fromXML l = Ok l'
  | _, _ => False
  end.
Proof. exact layouts_back. Qed.
Print Assumptions C36_layouts.

(** What comes back of a module: the same ID and type, what comes back of its layout, and the numbers rounded to ten digits. *)
Theorem C36_module_numbers : forall m p m' p', module_back m p m' p' ->
  getModuleID m' = getModuleID m /\ getTPCCoordinateType m' = getTPCCoordinateType m /\
  layout_back (m_layout m) (m_layout m') /\ 
  getOffset m' = (reread (fst (getOffset m)), reread (snd (getOffset m))) /\ getAngle m' = reread (getAngle m) /\
  getBorderWidth m' = reread (getBorderWidth m) /\ getZPosition m' = option_map reread (getZPosition m).
Proof. exact module_numbers. Qed.
Print Assumptions C36_module_numbers.

(** The place of a module comes back unchanged if and only if its numbers have at most ten digits. *)
Theorem C36_module_kept : forall m p m' p', module_back m p m' p' ->
  (getOffset m' = getOffset m /\ getAngle m' = getAngle m /\ getBorderWidth m' = getBorderWidth m /\ getZPosition m' = getZPosition m <-> kept_module m).
Proof. exact module_kept. Qed.
Print Assumptions C36_module_kept.

(** Then points of the pad plane are where they were. *)
Theorem C36_place_kept : forall id p type f h m ps m' ps', module_made id p type f h m -> side_settled p type h -> kept_module m ->
  module_back m ps m' ps' -> forall c0 c1, exists g g', localToGlobal m c0 c1 = Ok g /\ localToGlobal m' c0 c1 = Ok g' /\ point type g' = point type g.
Proof. exact place_kept. Qed.
Print Assumptions C36_place_kept.

(** But a module that was not mirrored although it is on the negative side (C29) is mirrored after loading. *)
Theorem C36_side_refuted : forall id p type f h m ps m' ps', module_made id p type f h m -> at_origin p type h -> side_seen h = false -> negative (last_z h) = true ->
  kept_module m -> module_back m ps m' ps' -> forall c0 c1, fst (point type (c0, c1)) <> 0 ->
  exists g', localToGlobal m c0 c1 = Ok (c0, c1) /\ localToGlobal m' c0 c1 = Ok g' /\ point type g' <> point type (c0, c1).
Proof. exact side_found. Qed.
Print Assumptions C36_side_refuted.

(** Readout frequencies come back as a single digit. *)
Theorem C36_frequency_refuted : forall m p m' p', module_back m p m' p' -> one_digit (TpcModuleModel.getReadoutFrequency m') /\
  (TpcModuleModel.getReadoutFrequency m' = TpcModuleModel.getReadoutFrequency m <-> one_digit (TpcModuleModel.getReadoutFrequency m)).
Proof. exact module_frequency. Qed.
Print Assumptions C36_frequency_refuted.

(** A TPC of either type with a module of any layout and any drift length can be made. *)
Example any_tpc : forall type p d, known_type type -> exists w, tpc_reached w /\ getCoordinateType (w_tpc w) = type /\ getModules (w_tpc w) = [1%Z] /\
  m_layout (w_heap w 1%Z) = p /\ getMaxDriftLength (w_tpc w) = d.
Proof.
  intros type p d K. set (m := new_module 7 p type 8).
  assert (A : exists t, addModule (fun _ => m) (new_tpc 400 type) (Some 1%Z) = SOk t tt /\ t_mods t = [1%Z] /\ t_type t = type).
  { unfold addModule, new_tpc. destruct (Reqb_spec 400 (-1)) as [X|_]; [lra|]. destruct (Z.eqb_spec type (-1)) as [X|_]; [destruct K; subst; discriminate|].
    change (getTPCCoordinateType m) with type. cbn [t_type negb]. rewrite Z.eqb_refl. cbn -[Rleb]. eexists. split; [reflexivity|]. cbn. auto. }
  destruct A as [t [A1 [A2 A3]]]. exists (mkW (fun _ => m) (setMaxDriftLength (fun _ => m) t d)).
  split. { exists 400, type, (fun _ => m), [TAdd (Some 1%Z); TDrift d]. cbn [tpc_run call_tpc w_heap w_tpc]. rewrite A1. reflexivity. }
  split; [exact A3|]. split; [exact A2|]. split; reflexivity.
Qed.

(** A TPC with a disk of equal angles is never loaded. *)
Theorem C36_fixed_angle_refuted : forall w mp hp a l, storable (params_after hp) -> (forall a, In a (getModules (w_tpc w)) -> storable (params_after (mp a))) ->
  In a (getModules (w_tpc w)) -> m_layout (w_heap w a) = LFpa l ->
  forall o, reload tpc_toXML tpc_fromXML (mkTO w (fun a => params_after (mp a)) (params_after hp)) <> Ok o.
Proof. exact fixed_angle_lost. Qed.
Print Assumptions C36_fixed_angle_refuted.

(** A polar TPC with a rectangular layout is never loaded. *)
Theorem C36_rectangle_refuted : forall w mp hp a l, storable (params_after hp) -> (forall a, In a (getModules (w_tpc w)) -> storable (params_after (mp a))) ->
  In a (getModules (w_tpc w)) -> getCoordinateType (w_tpc w) = POLAR -> m_layout (w_heap w a) = LRect l ->
  forall o, reload tpc_toXML tpc_fromXML (mkTO w (fun a => params_after (mp a)) (params_after hp)) <> Ok o.
Proof. exact rectangle_lost. Qed.
Print Assumptions C36_rectangle_refuted.

(** A drift length of -1 becomes 0. *)
Theorem C36_drift_refuted : forall w mp hp o, storable (params_after hp) -> (forall a, In a (getModules (w_tpc w)) -> storable (params_after (mp a))) ->
  getMaxDriftLength (w_tpc w) = -1 ->
  reload tpc_toXML tpc_fromXML (mkTO w (fun a => params_after (mp a)) (params_after hp)) = Ok o ->
  getMaxDriftLength (w_tpc (to_world o)) = 0.
Proof. exact drift_minus_one. Qed.
Print Assumptions C36_drift_refuted.

(** A TPC whose coordinates are neither cartesian nor polar cannot be written. *)
Theorem C36_unknown_type : forall o, ~ known_type (getCoordinateType (w_tpc (to_world o))) -> reload tpc_toXML tpc_fromXML o = Throw (EParse "coordinateType").
Proof. exact unknown_type. Qed.
Print Assumptions C36_unknown_type.

(** A layout in a file can be read, e.g. a saved one. *)
Example layout_file_case : exists lay p, is_elem lay = true /\ Value lay = "PadRowLayout2D"%string /\ lay_fromXML lay = Ok p /\ lay_type p = CARTESIAN.
Proof.
  destruct cartesian_case as [p [q [B [_ [_ [l [-> _]]]]]]]. pose proof (layout_type _ _ B) as T. unfold layout_back in B. rewrite reload_lay in B.
  destruct (lay_toXML (LRect l)) as [n| |] eqn:E; try discriminate. destruct (lay_element _ _ E) as [_ [H1 H2]]. exists n, q. repeat split; assumption.
Qed.

(** A TPC in a file of the old form has one module, with ID 0, at the origin; drift velocity and readout frequency are read to ten digits. *)
Theorem C36_old_file : forall at0 drift vel freq lay p, reread drift <> -1 -> is_elem lay = true -> Value lay = "PadRowLayout2D"%string -> lay_fromXML lay = Ok p ->
  exists w mp ps a, tpc_fromXML (old_tpc at0 drift vel freq lay) = Ok (mkTO w mp ps) /\ tpc_reached w /\
    getModules (w_tpc w) = [a] /\ getCoordinateType (w_tpc w) = lay_type p /\ getMaxDriftLength (w_tpc w) = reread drift /\
    getDriftVelocity (w_tpc w) = reread vel /\ getReadoutFrequency (w_heap w) (w_tpc w) = Ok (reread freq) /\
    getPadLayout (w_heap w) (w_tpc w) = Ok a /\ m_layout (w_heap w a) = p /\ getModuleID (w_heap w a) = 0%Z /\ ps = params_empty.
Proof. exact old_file. Qed.
Print Assumptions C36_old_file.

(** A section of two modules that share a default for the frequency and the offset; the second has its own number. *)
Definition ex_section : list xnode :=
  [XElem "default" [] [value_elem "readoutFrequency" "5"; value_elem "angle" "1"]; XElem "module" [] [value_elem "angle" "2"];
   XComment "module"; XElem "module" [] [value_elem "moduleID" "9"]]%string.
Example section_case : child_in_full (XElem "modules" [("moduleIDStartCount", "4")] ex_section)
  (XElem "modules" [("moduleIDStartCount", "4")]
     [XElem "module" [] [value_elem "angle" "2"; value_elem "readoutFrequency" "5"; value_elem "angle" "1"; value_elem "moduleID" "4"];
      XElem "module" [] [value_elem "moduleID" "9"; value_elem "readoutFrequency" "5"; value_elem "angle" "1"; value_elem "moduleID" "5"]])%string.
Proof. left. exists [("moduleIDStartCount", "4")]%string, ex_section, 4%Z. split; [reflexivity|]. split; vm_compute; reflexivity. Qed.

(** A TPC is read as if every module had been written out in full: with its own elements, with what the <default> that counts for it adds, and with the number counted in its section if there is no other. *)
Theorem C68_in_full : forall at0 ch ch', Forall2 child_in_full ch ch' -> tpc_fromXML (XElem "detector" at0 ch') = tpc_fromXML (XElem "detector" at0 ch).
Proof. exact file_in_full. Qed.
Print Assumptions C68_in_full.

(** The sections after a comment that reads just "modules" are not read. *)
Theorem C68_comment_refuted : forall at0 pre post, (forall c, In c pre -> is_elem c = true) -> 
  tpc_fromXML (XElem "detector" at0 (pre ++ XComment "modules" :: post)) =
  tpc_fromXML (XElem "detector" at0 (pre ++ XComment "modules" :: filter (fun c => negb (named "modules" c)) post)).
Proof. exact comment_hides. Qed.
Print Assumptions C68_comment_refuted.
