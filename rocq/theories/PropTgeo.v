(** Property theorems for C47 and C48: material between two points *)
From Coq Require Import ZArith List Bool Reals Lia Lra String.
From Verif Require Import Base RBase VecModel TgeoModel TgeoSpec TgeoProofs.
Import ListNotations.
Open Scope R_scope.

(** The world of the examples: along the x axis iron up to 10, air up to 30, iron up to 40; the track from
    the origin to (35,0,0).  Everything else is outside. *)
Definition ex_fe : gnode := mkNode "plate" "iron" 168 17.6.
Definition ex_air : gnode := mkNode "gap" "air" 0 0.
Definition ex_o : vec := vzero.
Definition ex_e : vec := mkVec 35 0 0.
Definition ex_way : list (gnode * R) := [(ex_fe, 10); (ex_air, 30); (ex_fe, 40)].
Definition ex_nav (n : gnode) (a b : R) : nav * nav := let v := mkNav (Some n) false (mkVec b 0 0) (mkVec a 0 0) (b - a) in (v, v).
Definition ex_reports : list (nav * nav) := [ex_nav ex_air 0 10; ex_nav ex_fe 10 30; ex_nav ex_fe 30 40].
Definition ex_g : geometry := fun p0 p1 => if (veqb p0 ex_o && veqb p1 ex_e)%bool then Some (ex_fe, ex_reports) else None.
Lemma ex_len : vdistance ex_e ex_o = 35.
Proof. unfold vdistance, vr, vsub, ex_e, ex_o, vzero. cbn. replace ((35 - 0) * (35 - 0) + (0 - 0) * (0 - 0) + (0 - 0) * (0 - 0)) with (35 * 35) by ring. apply sqrt_square. lra. Qed.
Example way_case : ex_o <> ex_e /\ ex_g ex_o ex_e = Some (ex_fe, ex_reports) /\ increasing 0 ex_way /\ reports ex_o ex_e 0 ex_way ex_reports /\
  reaches (vdistance ex_e ex_o) ex_way /\ pieces 0 (vdistance ex_e ex_o) ex_way = [(ex_fe, 10 - 0); (ex_air, 30 - 10); (ex_fe, 35 - 30)].
Proof.
  rewrite ex_len. split; [unfold ex_o, ex_e, vzero; intros E; injection E; lra|]. split; [unfold ex_g; rewrite !veqb_refl; reflexivity|].
  split; [unfold ex_way, increasing, MINSTEP; lra|]. split; [|split].
  - unfold ex_way, ex_reports, ex_nav. cbn [reports nv_out nv_node nv_pos nv_prev nv_len]. unfold on_way. rewrite ex_len. unfold vsub, vscale, ex_e, ex_o, vzero. cbn.
    repeat split; try discriminate; f_equal; field.
  - exists ex_fe, 40. split; [cbn; auto|lra].
  - unfold ex_way. cbn [pieces]. destruct (Rltb_spec 35 10); [lra|]. destruct (Rltb_spec 35 30); [lra|]. destruct (Rltb_spec 35 40); [reflexivity|lra].
Qed.
Lemma ex_answer : fresh ex_g (QMaterials, (ex_o, ex_e)) = Ok (ANames ["iron"; "air"; "iron"]%string) /\
  exists x, fresh ex_g (QNRad, (ex_o, ex_e)) = Ok (ANumber x) /\ x <> 0.
Proof.
  destruct way_case as (A & B & C & D & _ & P). destruct (answers ex_g ex_o ex_e ex_fe ex_way ex_reports A B eq_refl C D) as (E1 & _ & _ & E4 & _). rewrite P in E1, E4.
  split; [exact E1|]. eexists. split; [exact E4|]. cbn. unfold part_len. destruct (Reqb_spec 17.6 0); [lra|]. destruct (Reqb_spec 0 0); lra.
Qed.
(** A history with failing and with degenerate calls; the next call is for another pair. *)
Example history_case : let h := [(QNRad, (ex_e, ex_o)); (QMaterials, (ex_o, ex_o))] in
  (forall h1 c h2, h = h1 ++ c :: h2 -> ~ degenerate c -> Forall degenerate h2 -> ends_of c <> (ex_o, ex_e)) /\
  ask ex_g h (QMaterials, (ex_o, ex_e)) = Ok (ANames ["iron"; "air"; "iron"]%string).
Proof.
  intros h.
  assert (N : ex_o <> ex_e) by apply way_case.
  assert (H : forall h1 c h2, h = h1 ++ c :: h2 -> ~ degenerate c -> Forall degenerate h2 -> ends_of c <> (ex_o, ex_e)).
  { intros h1 c h2 E D _ Q. destruct h1 as [|c1 [|c2 [|? ?]]]; cbn in E.
    - injection E as <- _. apply N. symmetry. exact (f_equal fst Q).
    - injection E as _ <- _. apply D. reflexivity.
    - injection E as _ _ E. destruct h2; discriminate.
    - injection E as _ _ E. destruct l; discriminate. }
  split; [exact H|]. rewrite (other_pair_fresh ex_g h QMaterials ex_o ex_e N H). apply ex_answer.
Qed.
(** A track that starts on a boundary: the first step has length 0 and is made again. *)
Definition ex_short : list (nav * nav) :=
  [(mkNav (Some ex_fe) false (mkVec 0 0 0) (mkVec 0 0 0) 0, snd (ex_nav ex_air 0 10)); ex_nav ex_fe 10 40].
Example short_case : let g : geometry := fun _ _ => Some (ex_air, ex_short) in
  exists ds, fresh g (QThicknesses, (ex_o, ex_e)) = Ok (ALengths ds) /\ sum_list ds = 35 - (10 - 0).
Proof.
  intros g. pose proof ex_len as L. destruct way_case as (A & _).
  assert (W10 : on_way ex_o ex_e 10 (mkVec 10 0 0)) by (unfold on_way; rewrite L; unfold vsub, vscale, ex_e, ex_o, vzero; cbn; f_equal; field).
  assert (W40 : on_way ex_o ex_e 40 (mkVec 40 0 0)) by (unfold on_way; rewrite L; unfold vsub, vscale, ex_e, ex_o, vzero; cbn; f_equal; field).
  destruct (short_step g ex_o ex_e ex_air (mkNav (Some ex_fe) false (mkVec 0 0 0) (mkVec 0 0 0) 0) (snd (ex_nav ex_air 0 10)) ex_air
     (fst (ex_nav ex_fe 10 40)) (snd (ex_nav ex_fe 10 40)) [] A eq_refl) with (t := 10) as (ds & E & S & _);
    cbn [nv_node nv_out nv_len nv_pos nv_prev ex_nav fst snd]; try discriminate; try reflexivity; try (unfold MINSTEP; lra); try (rewrite L; lra); try exact W10.
  - rewrite (way_dist _ _ 10 _ A ltac:(lra) W10), L. lra.
  - rewrite (way_dist _ _ 40 _ A ltac:(lra) W40), L. lra.
  - exists ds. split; [exact E|]. rewrite S, L. cbn. ring.
Qed.

(** C47: after any history, also one with exceptions, a query between two points gives what a new object
    gives, if the last query between two different points was about other points. *)
Theorem C47_other_pair : forall g h k p0 p1, p0 <> p1 ->
  (forall h1 c h2, h = h1 ++ c :: h2 -> ~ degenerate c -> Forall degenerate h2 -> ends_of c <> (p0, p1)) ->
  ask g h (k, (p0, p1)) = fresh g (k, (p0, p1)).
Proof. exact other_pair_fresh. Qed.
Print Assumptions C47_other_pair.

(** C47: a query between equal points gives what a new object gives, after any history. *)
Theorem C47_equal_points : forall g h k p, ask g h (k, (p, p)) = fresh g (k, (p, p)).
Proof. exact degenerate_fresh. Qed.
Print Assumptions C47_equal_points.

(** C47: after any history in which no list was asked for between equal points, every query a new object
    can answer gives what the new object gives. *)
Theorem C47_undisturbed : forall g h c, (forall c', In c' h -> degenerate c' -> ~ asks_list (kind_of c')) ->
  (exists a, fresh g c = Ok a) -> ask g h c = fresh g c.
Proof. exact undisturbed_fresh. Qed.
Print Assumptions C47_undisturbed.

(** C47: the same if only since the last change of the points no list was asked for between equal points. *)
Theorem C47_since_other : forall g h1 c1 h2 c, ~ degenerate c1 ->
  (forall h3 c3 h4, h1 = h3 ++ c3 :: h4 -> ~ degenerate c3 -> Forall degenerate h4 -> ends_of c3 <> ends_of c1) ->
  (forall c', In c' h2 -> degenerate c' -> ~ asks_list (kind_of c')) -> (exists a, fresh g c = Ok a) ->
  ask g (h1 ++ c1 :: h2) c = fresh g c.
Proof. exact since_other_fresh. Qed.
Print Assumptions C47_since_other.

(** C47 (defect): asking for names between equal points empties the names of the pair asked for before,
    which is then reported as having no material. *)
Theorem C47_names_emptied_refuted : forall g k p0 p1 p l, p0 <> p1 -> k = QMaterials \/ k = QVolumes -> fresh g (k, (p0, p1)) = Ok (ANames l) ->
  ask g [(k, (p0, p1)); (k, (p, p))] (k, (p0, p1)) = Ok (ANames []).
Proof. exact names_emptied. Qed.
Print Assumptions C47_names_emptied_refuted.

(** C47 (defect): asking for thicknesses between equal points makes the number of radiation or interaction
    lengths of the pair asked for before undefined (it reads beyond the end of a vector). *)
Theorem C47_lengths_undefined_refuted : forall g k1 k p0 p1 p x, p0 <> p1 -> k = QNRad \/ k = QNInt ->
  fresh g (k, (p0, p1)) = Ok (ANumber x) -> x <> 0 ->
  ask g [(k1, (p0, p1)); (QThicknesses, (p, p))] (k, (p0, p1)) = UB.
Proof. exact lengths_undefined. Qed.
Print Assumptions C47_lengths_undefined_refuted.

(** C47 (defect): a query that failed because its start is outside the geometry is answered with "nothing" when
    it is repeated. *)
Theorem C47_failure_forgotten_refuted : forall g k k' p0 p1, p0 <> p1 -> g p0 p1 = None ->
  fresh g (k, (p0, p1)) = Throw (EGear "OutsideGeometryException") /\
  ask g [(k', (p0, p1))] (k, (p0, p1)) = Ok match k with QMaterials | QVolumes => ANames [] | QThicknesses => ALengths [] | _ => ANumber 0 end.
Proof. exact failure_forgotten. Qed.
Print Assumptions C47_failure_forgotten_refuted.

(** C48: between equal points there is nothing, after any history. *)
Theorem C48_equal_points : forall g h p k,
  ask g h (k, (p, p)) = Ok (match k with QMaterials | QVolumes => ANames [] | QThicknesses => ALengths [] | QNRad | QNInt => ANumber 0 end).
Proof. exact between_equal. Qed.
Print Assumptions C48_equal_points.

(** C48: for a track on which the navigator reports pieces one after the other, the five queries answer: the
    materials, volumes and thicknesses of the pieces up to the end point, and the sums of thickness over
    radiation (interaction) length. *)
Theorem C48_answers : forall g p0 p1 m l r, p0 <> p1 -> g p0 p1 = Some (m, r) -> (match l with [] => True | (m', _) :: _ => m' = m end) ->
  increasing 0 l -> reports p0 p1 0 l r ->
  let ps := pieces 0 (vdistance p1 p0) l in
  fresh g (QMaterials, (p0, p1)) = Ok (ANames (map (fun x => gn_mat (fst x)) ps)) /\
  fresh g (QVolumes, (p0, p1)) = Ok (ANames (map (fun x => gn_vol (fst x)) ps)) /\
  fresh g (QThicknesses, (p0, p1)) = Ok (ALengths (map snd ps)) /\
  fresh g (QNRad, (p0, p1)) = Ok (ANumber (sum_list (map (fun x => part_len (snd x) (gn_rad (fst x))) ps))) /\
  fresh g (QNInt, (p0, p1)) = Ok (ANumber (sum_list (map (fun x => part_len (snd x) (gn_int (fst x))) ps))).
Proof. exact answers. Qed.
Print Assumptions C48_answers.

(** C48: the thicknesses are not negative, and add up to the distance of the points if the world reaches
    beyond the end point; otherwise they add up to where the last complete piece ends (the piece up to the
    world's border is dropped). *)
Theorem C48_thickness_total : forall g p0 p1 m l r, p0 <> p1 -> g p0 p1 = Some (m, r) -> (match l with [] => True | (m', _) :: _ => m' = m end) ->
  increasing 0 l -> reports p0 p1 0 l r ->
  exists ds, fresh g (QThicknesses, (p0, p1)) = Ok (ALengths ds) /\ (forall d, In d ds -> 0 <= d) /\
  (reaches (vdistance p1 p0) l -> sum_list ds = vdistance p1 p0) /\
  ((forall n t, In (n, t) l -> t <= vdistance p1 p0) -> sum_list ds = last (map snd l) 0).
Proof. exact thickness_total. Qed.
Print Assumptions C48_thickness_total.

(** C48: the numbers of radiation and interaction lengths are not negative. *)
Theorem C48_lengths_nonneg : forall g p0 p1 m l r x, p0 <> p1 -> g p0 p1 = Some (m, r) -> (match l with [] => True | (m', _) :: _ => m' = m end) ->
  increasing 0 l -> reports p0 p1 0 l r -> (forall n t, In (n, t) l -> 0 <= gn_rad n /\ 0 <= gn_int n) ->
  fresh g (QNRad, (p0, p1)) = Ok (ANumber x) \/ fresh g (QNInt, (p0, p1)) = Ok (ANumber x) -> 0 <= x.
Proof. exact lengths_nonneg. Qed.
Print Assumptions C48_lengths_nonneg.

(** C48: whatever the navigator reports, names and thicknesses have one entry for each volume, and the two
    numbers are sums over the thicknesses. *)
Theorem C48_parallel : forall g p0 p1 ns, p0 <> p1 -> fresh g (QMaterials, (p0, p1)) = Ok (ANames ns) ->
  exists vs ds xs is_, fresh g (QVolumes, (p0, p1)) = Ok (ANames vs) /\ fresh g (QThicknesses, (p0, p1)) = Ok (ALengths ds) /\
  List.length vs = List.length ns /\ List.length ds = List.length ns /\ List.length xs = List.length ns /\ List.length is_ = List.length ns /\
  fresh g (QNRad, (p0, p1)) = Ok (ANumber (sum_over ds xs)) /\ fresh g (QNInt, (p0, p1)) = Ok (ANumber (sum_over ds is_)).
Proof. exact parallel. Qed.
Print Assumptions C48_parallel.

(** C48 (defect): when a step is too short it is made again, but the length of the second step is never read:
    the way it covers is missing from the thicknesses. *)
Theorem C48_short_step_refuted : forall g p0 p1 n v w n2 v3 w3 l, p0 <> p1 ->
  g p0 p1 = Some (n, (v, w) :: (v3, w3) :: l) ->
  nv_node v <> None -> nv_out v = false -> nv_len v < MINSTEP -> nv_node w = Some n2 -> nv_out w = false -> vdistance (nv_pos w) p0 <= vdistance p1 p0 ->
  nv_node v3 <> None -> nv_out v3 = false -> MINSTEP <= nv_len v3 -> vdistance p1 p0 < vdistance (nv_pos v3) p0 ->
  forall t, t <= vdistance p1 p0 -> on_way p0 p1 t (nv_pos w) -> nv_prev v3 = nv_pos w ->
  exists ds, fresh g (QThicknesses, (p0, p1)) = Ok (ALengths ds) /\ sum_list ds = vdistance p1 p0 - (t - nv_len v) /\
  fresh g (QMaterials, (p0, p1)) = Ok (ANames [gn_mat n; gn_mat n2]).
Proof. exact short_step. Qed.
Print Assumptions C48_short_step_refuted.
