(** Property theorems for C69-C72: material at a point, volume lists, the plugin object, Mokka's answers *)
From Coq Require Import ZArith List Bool Reals Lia Lra String.
From Verif Require Import Base RBase VecModel CgaModel PointModel PointSpec PointProofs.
Import ListNotations.
Open Scope list_scope.
Open Scope R_scope.

(** The world of the examples: air up to x = 100; from x = 0 to 10 a silicon sensor in a carbon ladder.  Each
    level shifts the frame by 5 along x. *)
Definition ex_air : pmat := mkPMat "air" 1 293 1 30000 70000.
Definition ex_si : pmat := mkPMat "silicon" 2 293 0 94 465.
Definition ex_c : pmat := mkPMat "carbon" 3 293 0 213 388.
Definition ex_top : pnode := mkPNode 1 "world_1" 2 "world" ex_air.
Definition ex_ladder : pnode := mkPNode 3 "ladder_7" 4 "ladder" ex_c.
Definition ex_sensor : pnode := mkPNode 5 "sensor_2" 6 "sensor" ex_si.
Definition ex_find (p : vec) : option branch :=
  if (Rleb 0 (vx p) && Rleb (vx p) 10)%bool then Some [ex_sensor; ex_ladder; ex_top]
  else if Rleb (vx p) 100 then Some [ex_top] else None.
Definition ex_local (b : branch) (p : vec) : vec := mkVec (vx p - 5 * INR (List.length b - 1)) (vy p) (vz p).
Definition ex_w : world := mkWorld ex_top ex_find ex_local.
Definition at_x (x : R) : vec := mkVec x 0 0.
Lemma ex_sound : sound ex_w.
Proof.
  intros p b. cbn [w_find ex_w]. unfold ex_find. destruct (_ && _)%bool.
  - intros [= <-]. exists [ex_sensor; ex_ladder]. split; [reflexivity|]. cbn. intros n [<-|[<-|[]]]; split; discriminate.
  - destruct (Rleb _ _); [|discriminate]. intros [= <-]. exists []. split; [reflexivity|]. intros n [].
Qed.
Lemma ex_in : lies_in ex_w (at_x 4) ex_sensor [ex_ladder; ex_top].
Proof. unfold lies_in, ex_w, ex_find, at_x. cbn [w_find vx]. destruct (Rleb_spec 0 4); [|lra]. destruct (Rleb_spec 4 10); [reflexivity|lra]. Qed.
Lemma ex_in_air : lies_in ex_w (at_x 50) ex_top [].
Proof. unfold lies_in, ex_w, ex_find, at_x. cbn [w_find vx]. destruct (Rleb_spec 0 50); [|lra]. destruct (Rleb_spec 50 10); [lra|]. cbn. destruct (Rleb_spec 50 100); [reflexivity|lra]. Qed.
Lemma ex_out : lies_outside ex_w (at_x 200).
Proof. unfold lies_outside, ex_w, ex_find, at_x. cbn [w_find vx]. destruct (Rleb_spec 0 200); [|lra]. destruct (Rleb_spec 200 10); [lra|]. cbn. destruct (Rleb_spec 200 100); [lra|reflexivity]. Qed.
Lemma ex_frames : w_local ex_w [w_top ex_w] (at_x 4) <> w_local ex_w [ex_sensor; ex_ladder; ex_top] (at_x 4).
Proof. cbn. unfold ex_local, at_x. cbn. intros E. injection E. lra. Qed.

(** C69: after any history of queries, and wherever somebody else moved the manager, every query except
    getLocalPosition gives the right answer for the point asked: its own material, volumes and containing
    volumes, the exception for points outside, and the exception for what is not supported. *)
Theorem C69_answers : forall w h q p, sound w -> q <> QLocalPosition -> right_answer w p q (fst (call w q p (history w h))).
Proof. exact answers_right. Qed.
Print Assumptions C69_answers.

(** C69: there is one right answer to each query. *)
Theorem C69_right_unique : forall w p q a b, right_answer w p q a -> right_answer w p q b -> a = b.
Proof. exact right_answer_unique. Qed.
Print Assumptions C69_right_unique.

(** C69: getLocalPosition gives the position in the frame of the place where the last query left the manager. *)
Theorem C69_local_where : forall w h p b, sound w -> leaves_at w h b ->
  fst (call w QLocalPosition p (history w h)) = Gives (PVector (w_local w b p)).
Proof. exact local_where. Qed.
Print Assumptions C69_local_where.

(** C69: getLocalPosition is right directly after a material query for the same point. *)
Theorem C69_local_after_material : forall w h q p n o, sound w -> material_query q -> lies_in w p n o ->
  right_answer w p QLocalPosition (fst (call w QLocalPosition p (history w (h ++ [Called q p])))).
Proof. exact local_after_material. Qed.
Print Assumptions C69_local_after_material.

(** C69 (defect): on a new manager getLocalPosition is wrong for every point whose frame is not that of the
    world. *)
Theorem C69_local_new_refuted : forall w p n o, sound w -> lies_in w p n o -> w_local w [w_top w] p <> w_local w (n :: o) p ->
  ~ right_answer w p QLocalPosition (fst (call w QLocalPosition p (history w []))).
Proof. exact local_new_wrong. Qed.
Print Assumptions C69_local_new_refuted.

(** C69 (defect): so it is directly after the volumes at the same point were listed. *)
Theorem C69_local_after_list_refuted : forall w h q p n o, sound w -> list_query q -> lies_in w p n o -> w_local w [w_top w] p <> w_local w (n :: o) p ->
  ~ right_answer w p QLocalPosition (fst (call w QLocalPosition p (history w (h ++ [Called q p])))).
Proof. exact local_after_list_wrong. Qed.
Print Assumptions C69_local_after_list_refuted.

(** C69 (defect): for a point outside of the world getLocalPosition returns a position instead of throwing. *)
Theorem C69_local_outside_refuted : forall w h p, sound w -> lies_outside w p ->
  (exists v, fst (call w QLocalPosition p (history w h)) = Gives (PVector v)) /\
  ~ right_answer w p QLocalPosition (fst (call w QLocalPosition p (history w h))).
Proof. exact local_outside. Qed.
Print Assumptions C69_local_outside_refuted.

(** C69: the text behind the reference returned by getMaterialName is that of the last call that found a
    material, whichever object was asked; other queries and failed calls keep it. *)
Theorem C69_name_kept : forall w h e t h', sound w -> named w e t -> (forall e' t', In e' h' -> ~ named w e' t') ->
  ps_text (history w (h ++ e :: h')) = t.
Proof. exact text_history. Qed.
Print Assumptions C69_name_kept.

(** C69 (defect): a name that was returned changes when getMaterialName is called for another material. *)
Theorem C69_name_changes_refuted : forall w h p n o p' n' o', sound w -> lies_in w p n o -> lies_in w p' n' o' -> pm_name (pn_mat n) <> pm_name (pn_mat n') ->
  fst (call w QMaterialName p (history w h)) = Gives (PText (pm_name (pn_mat n))) /\
  ps_text (history w (h ++ [Called QMaterialName p])) = pm_name (pn_mat n) /\
  ps_text (history w (h ++ [Called QMaterialName p; Called QMaterialName p'])) <> pm_name (pn_mat n).
Proof. exact text_changes. Qed.
Print Assumptions C69_name_changes_refuted.

Example local_case : sound ex_w /\ lies_in ex_w (at_x 4) ex_sensor [ex_ladder; ex_top] /\ lies_outside ex_w (at_x 200) /\
  w_local ex_w [w_top ex_w] (at_x 4) <> w_local ex_w [ex_sensor; ex_ladder; ex_top] (at_x 4).
Proof. exact (conj ex_sound (conj ex_in (conj ex_out ex_frames))). Qed.
Example leaves_case : leaves_at ex_w [Called QLogical (at_x 4); Called QDensity (at_x 4); Called QB (at_x 50)] [ex_sensor; ex_ladder; ex_top].
Proof.
  apply (la_same _ [Called QLogical (at_x 4); Called QDensity (at_x 4)]); [cbn; intuition discriminate|cbn; intuition discriminate|].
  apply (la_material _ [Called QLogical (at_x 4)]); [cbn; tauto|exact ex_in].
Qed.
Example names_case : lies_in ex_w (at_x 4) ex_sensor [ex_ladder; ex_top] /\ lies_in ex_w (at_x 50) ex_top [] /\
  pm_name (pn_mat ex_sensor) <> pm_name (pn_mat ex_top) /\ named ex_w (Called QMaterialName (at_x 4)) "silicon".
Proof. split; [exact ex_in|]. split; [exact ex_in_air|]. split; [discriminate|]. exists (at_x 4), ex_sensor, [ex_ladder; ex_top]. split; [reflexivity|split; [exact ex_in|reflexivity]]. Qed.

(** C70: both lists of volumes have one entry for each level, in the same order: the volume at the point first,
    the world last. *)
Theorem C70_hierarchy : forall w h p n o, sound w -> lies_in w p n o ->
  exists ls ps,
    fst (call w QLogical p (history w h)) = Gives (PNames ls) /\ fst (call w QPhysical p (history w h)) = Gives (PNames ps) /\
    List.length ls = S (List.length o) /\ List.length ps = S (List.length o) /\
    hd_error ls = Some (pv_name n) /\ hd_error ps = Some (pn_name n) /\
    last ls EmptyString = pv_name (w_top w) /\ last ps EmptyString = pn_name (w_top w) /\
    (forall k m, nth_error (n :: o) k = Some m -> nth_error ls k = Some (pv_name m) /\ nth_error ps k = Some (pn_name m)).
Proof. exact hierarchy. Qed.
Print Assumptions C70_hierarchy.

(** C70 (hypothesis needed): when the branch does not lead to the top volume of the manager (it was changed
    after the geometry was closed), the list of logical volumes is never finished. *)
Theorem C70_never_returns_refuted : forall w h p n o, lies_in w p n o ->
  (forall m, In m (n :: o) -> pv_addr m <> pv_addr (w_top w)) ->
  fst (call w QLogical p (history w h)) = Forever /\
  forall turns acc, climb turns pv_addr pv_name (pv_addr (w_top w)) (n :: o) acc = None.
Proof. exact hierarchy_forever. Qed.
Print Assumptions C70_never_returns_refuted.

Example hierarchy_case : fst (call ex_w QLogical (at_x 4) (history ex_w [])) = Gives (PNames ["sensor"; "ladder"; "world"]%string) /\
  fst (call ex_w QPhysical (at_x 4) (history ex_w [])) = Gives (PNames ["sensor_2"; "ladder_7"; "world_1"]%string).
Proof.
  pose proof ex_in as I. unfold lies_in in I. split; unfold call, names_at, FindNode; rewrite I; reflexivity.
Qed.
Example forever_case : let w := mkWorld ex_ladder ex_find ex_local in
  lies_in w (at_x 50) ex_top [] /\ forall m, In m [ex_top] -> pv_addr m <> pv_addr (w_top w).
Proof. split; [exact ex_in_air|]. intros m [<-|[]]. discriminate. Qed.

(** C71: the plugin object gives point (and distance) objects exactly when an initialisation has succeeded, and
    for the geometry of the last one that did; a later one that fails keeps it. *)
Theorem C71_objects : forall fs l w,
  (mp_point (mhistory fs l) = Some w <-> last_read fs l w) /\ (mp_distance (mhistory fs l) = Some w <-> last_read fs l w).
Proof. exact objects_iff. Qed.
Print Assumptions C71_objects.

(** C71: initialize succeeds exactly when the file last configured can be read, and throws a ParseException
    otherwise. *)
Theorem C71_initialize : forall fs l f, configured l f ->
  (forall w, fs f = Some w -> fst (mp_initialize fs (mhistory fs l)) = Ok tt) /\
  (fs f = None -> exists t, fst (mp_initialize fs (mhistory fs l)) = Throw (EParse t)).
Proof. exact init_result. Qed.
Print Assumptions C71_initialize.

(** C71: there is one file last configured. *)
Theorem C71_configured_unique : forall l f f', configured l f -> configured l f' -> f = f'.
Proof. exact configured_unique. Qed.
Print Assumptions C71_configured_unique.

(** C71: a <GDMLFile> in a file sets both properties for the geometry named, throws when it cannot be read, and
    sets nothing when the library is not there. *)
Theorem C71_gdml_element : forall lib fs f,
  (forall w, lib = true -> fs f = Some w -> gdml_file lib fs f = Ok (Some (Some w, Some w))) /\
  (lib = true -> fs f = None -> exists t, gdml_file lib fs f = Throw (EParse t)) /\
  (lib = false -> gdml_file lib fs f = Ok None).
Proof. exact gdml_read. Qed.
Print Assumptions C71_gdml_element.

Example plugin_case : let fs := fun f => if String.eqb f "a.gdml" then Some ex_w else None in
  last_read fs [MConfig "GDMLFileName" "a.gdml"; MInitialize; MConfig "GDMLFileName" "b.gdml"; MInitialize] ex_w /\
  configured [MConfig "GDMLFileName" "a.gdml"; MConfig "x" "y"] "a.gdml".
Proof.
  cbv zeta. split; [apply init_iff; reflexivity|].
  apply (cf_last [] "a.gdml" [MConfig "x" "y"]). intros k v [E|[]]. injection E as <- <-. discriminate.
Qed.

(** C72: whatever was asked before, the numbers of radiation and interaction lengths are the sums over the steps
    Mokka reports between the two points, which it is given in cm; the field integrals are those between the
    points in mm. *)
Theorem C72_numbers : forall mk h p0 p1,
  fst (cga_distance mk CRadlen p0 p1 (chistory mk h)) = PNumber (total (map cs_x0 (way mk p0 p1))) /\
  fst (cga_distance mk CIntlen p0 p1 (chistory mk h)) = PNumber (total (map cs_il (way mk p0 p1))) /\
  fst (cga_distance mk CBdL p0 p1 (chistory mk h)) = PNumber (mk_bdl mk p0 p1) /\
  fst (cga_distance mk CEdL p0 p1 (chistory mk h)) = PNumber (mk_edl mk p0 p1).
Proof. exact cga_numbers. Qed.
Print Assumptions C72_numbers.

(** C72: if Mokka replaces the contents of the vectors it is given, names and thicknesses are those of the steps
    between the two points, after any history. *)
Theorem C72_lists : forall mk h p0 p1, mk_appends mk = false ->
  fst (cga_distance mk CNames p0 p1 (chistory mk h)) = PNames (map cs_mat (way mk p0 p1)) /\
  fst (cga_distance mk CThicknesses p0 p1 (chistory mk h)) = PLengths (map cs_len (way mk p0 p1)).
Proof. exact cga_lists. Qed.
Print Assumptions C72_lists.

(** C72: if it adds to them, the lists begin with what all earlier calls asked for. *)
Theorem C72_lists_appended : forall mk h p0 p1, mk_appends mk = true ->
  fst (cga_distance mk CNames p0 p1 (chistory mk h)) = PNames (names_asked mk h ++ map cs_mat (way mk p0 p1)) /\
  fst (cga_distance mk CThicknesses p0 p1 (chistory mk h)) = PLengths (lengths_asked mk h ++ map cs_len (way mk p0 p1)).
Proof. exact cga_lists_appended. Qed.
Print Assumptions C72_lists_appended.

(** C72 (defect in that case): then the names are wrong after any call that had a step. *)
Theorem C72_lists_appended_refuted : forall mk h p0 p1 q0 q1, mk_appends mk = true -> In (CDistance CNames q0 q1) h -> way mk q0 q1 <> [] ->
  fst (cga_distance mk CNames p0 p1 (chistory mk h)) <> PNames (map cs_mat (way mk p0 p1)).
Proof. exact cga_lists_wrong. Qed.
Print Assumptions C72_lists_appended_refuted.

(** C72: the point queries give what Mokka answers for the point, whatever was asked before; vectors of fewer
    than three numbers are read beyond their end. *)
Theorem C72_points : forall mk h p,
  fst (cga_point mk QMaterialName p (chistory mk h)) = Ok (PText (mk_name mk p)) /\
  (forall q, In q [QDensity; QTemperature; QPressure; QRadlen; QIntlen] -> fst (cga_point mk q p (chistory mk h)) = Ok (PNumber (mk_number mk q p))) /\
  (forall q, In q [QLocalPosition; QB; QE] -> forall v,
     fst (cga_point mk q p (chistory mk h)) = Ok v <-> exists x y z r, mk_vector mk q p = x :: y :: z :: r /\ v = PVector (mkVec x y z)) /\
  (forall q, In q [QLocalPosition; QB; QE] -> fst (cga_point mk q p (chistory mk h)) = UB <-> (List.length (mk_vector mk q p) < 3)%nat) /\
  (forall q, In q [QLogical; QPhysical] -> fst (cga_point mk q p (chistory mk h)) = Ok (PNames (mk_names mk q p))) /\
  fst (cga_point mk QRegion p (chistory mk h)) = Ok (PText (mk_region mk p)) /\
  (forall q, In q [QIsTracker; QIsCalorimeter] -> fst (cga_point mk q p (chistory mk h)) = Ok (PBool (mk_bool mk q p))).
Proof. exact cga_point_answers. Qed.
Print Assumptions C72_points.

Example mokka_case : exists mk p0 p1, mk_appends mk = true /\ way mk p0 p1 <> [] /\ total (map cs_x0 (way mk p0 p1)) = 3 /\
  mk_vector mk QB p0 = [] /\ mk_vector mk QE p0 = [1; 2; 3].
Proof.
  exists (mkMokka (fun i f d => [mkCStep "iron" (vx d) (vx f - vx i) 1; mkCStep "air" 1 2 1]) true (fun _ _ => 0) (fun _ _ => 0) (fun _ => "iron"%string)
    (fun _ _ => 0) (fun q _ => match q with QB => [] | _ => [1; 2; 3] end) (fun _ => (1, 2, 1)%Z) (fun _ _ => []) (fun _ => "barrel"%string) (fun _ _ => true)), (at_x 0), (at_x 10).
  unfold way, in_cm, at_x, vsub. cbn. repeat split; try discriminate. lra.
Qed.
