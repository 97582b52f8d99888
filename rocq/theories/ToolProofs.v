(** Proofs for C85: the command line programs. *)
From Coq Require Import ZArith List String Ascii Bool Lia Reals.
From Verif Require Import Base RBase XmlModel XmlSpec HxModel MergeModel MergeSpec MergeProofs MergeProofs2 GearXmlModel GearXmlSpec GearXmlProofs GearXmlProofs5 GearXmlProofs6
  GearXmlProofs2 GearXmlProofs3 GearXmlProofs4 CopySpec CopyProofs3 CopyProofs4 UtilModel UtilSpec UtilProofs UtilProofs2 UtilProofs3 UtilProofs4 UtilProofs5 ToolModel ToolSpec.
Import ListNotations.
Open Scope list_scope.

Lemma same_refl : forall d, same_files d d.
Proof. split; reflexivity. Qed.
Lemma saved : forall d name bytes, may_write d name = true -> exists d', SaveFile d name bytes = (true, d') /\ only_written d name bytes d'.
Proof.
  intros d name bytes W. unfold SaveFile. rewrite W. eexists. split; [reflexivity|]. split; [|split].
  - cbn [contents]. now rewrite String.eqb_refl.
  - intros n N. cbn [contents]. destruct (String.eqb_spec n name); [contradiction|reflexivity].
  - reflexivity.
Qed.
Lemma not_saved : forall d name bytes, may_write d name = false -> SaveFile d name bytes = (false, d).
Proof. intros d name bytes W. unfold SaveFile. now rewrite W. Qed.

(** ** mergeXML *)
Lemma open1_cases : forall m o,
  (exists doc bytes, o = Some bytes /\ LoadFile bytes = POk (doc, true) /\ open1 m o = SOk (mkMerger (Some doc) (_file2 m) (_domFile m)) true) \/
  ((o = None \/ exists bytes doc, o = Some bytes /\ LoadFile bytes = POk (doc, false)) /\ exists m', open1 m o = SOk m' false) \/
  open1 m o = SUB.
Proof.
  intros m [s|]; cbn [open1]; [|right; left; split; [now left|eauto]]. unfold setFile1. destruct (LoadFile s) as [[doc []]| |] eqn:E; auto.
  - left. exists doc, s. auto.
  - right. left. split; [right; exists s, doc; auto|eauto].
Qed.
Lemma open2_cases : forall m o,
  (exists doc bytes, o = Some bytes /\ LoadFile bytes = POk (doc, true) /\ open2 m o = SOk (mkMerger (_file1 m) (Some doc) (_domFile m)) true) \/
  ((o = None \/ exists bytes doc, o = Some bytes /\ LoadFile bytes = POk (doc, false)) /\ exists m', open2 m o = SOk m' false) \/
  open2 m o = SUB.
Proof.
  intros m [s|]; cbn [open2]; [|right; left; split; [now left|eauto]]. unfold setFile2. destruct (LoadFile s) as [[doc []]| |] eqn:E; auto.
  - left. exists doc, s. auto.
  - right. left. split; [right; exists s, doc; auto|eauto].
Qed.
Lemma merge_not_gear : forall r s m', sound_doc r -> sound_doc s -> mergeFiles (mkMerger (Some r) (Some s) 2) = SOk m' None ->
  ~ (gear_document r /\ gear_document s).
Proof.
  intros r s m' Sr Ss H [[g1 [s1 [A B]]] [g2 [s2 [C D]]]]. unfold mergeFiles, correctDominantFile in H. cbn [_domFile] in H.
  change (2 =? 1)%Z with false in H. cbn iota in H. cbn [_file1 _file2] in H. cbv zeta in H. rewrite (clone_doc_sound s Ss) in H.
  unfold section in A, B, C, D. unfold first_of in H. rewrite A, C, B, D in H.
  destruct (rbind _ _) in H; discriminate.
Qed.
Lemma merge_gear : forall r s m' text, sound_doc r -> sound_doc s -> mergeFiles (mkMerger (Some r) (Some s) 2) = SOk m' (Some text) ->
  gear_document r /\ gear_document s.
Proof.
  intros r s m' text Sr Ss H. unfold mergeFiles, correctDominantFile in H. cbn [_domFile] in H.
  change (2 =? 1)%Z with false in H. cbn iota in H. cbn [_file1 _file2] in H. cbv zeta in H. rewrite (clone_doc_sound s Ss) in H.
  unfold gear_document, section. unfold first_of in H.
  destruct (find _ r) as [g1|] eqn:A in H; [|discriminate]. destruct (find _ s) as [g2|] eqn:B in H; [|discriminate].
  destruct (find _ (children g1)) as [s1|] eqn:C in H; [|discriminate]. destruct (find _ (children g2)) as [s2|] eqn:D in H; [|discriminate].
  split; [exists g1, s1 | exists g2, s2]; auto.
Qed.
Lemma not_gear_not_merged : forall r s, sound_doc r -> sound_doc s -> ~ (gear_document r /\ gear_document s) ->
  exists m', mergeFiles (mkMerger (Some r) (Some s) 2) = SOk m' None.
Proof.
  intros r s Sr Ss N. unfold mergeFiles, correctDominantFile. cbn [_domFile]. change (2 =? 1)%Z with false. cbn iota. cbn [_file1 _file2].
  cbv zeta. rewrite (clone_doc_sound s Ss). unfold gear_document, section in N. unfold first_of.
  destruct (find _ r) as [g1|] eqn:A; [|eauto]. destruct (find _ s) as [g2|] eqn:B; [|eauto].
  destruct (find _ (children g1)) as [s1|] eqn:C; [|eauto]. destruct (find _ (children g2)) as [s2|] eqn:D; [|eauto].
  exfalso. apply N. split; [exists g1, s1 | exists g2, s2]; auto.
Qed.

Lemma merge_ends : forall d a b t rest e d', merge_main d (a :: b :: t :: rest) = Ran e d' ->
  (e = Status 2 /\ d' = d /\ (unreadable d a \/ unreadable d b)) \/
  exists r s, holds d a r /\ holds d b s /\
    ((d' = d /\ exists m' x, mergeFiles (mkMerger (Some r) (Some s) 2) = SThrow m' x /\ e = if is_gear_exception x then Status 0 else Terminated x) \/
     (d' = d /\ e = Status 1 /\ exists m', mergeFiles (mkMerger (Some r) (Some s) 2) = SOk m' None) \/
     exists m' text, mergeFiles (mkMerger (Some r) (Some s) 2) = SOk m' (Some text) /\
       ((may_write d t = true /\ e = Status 0 /\ only_written d t text d') \/ (may_write d t = false /\ e = Status 1 /\ d' = d))).
Proof.
  intros d a b t rest e d' H. unfold merge_main in H. cbv zeta in H.
  destruct (open1_cases new_merger (contents d a)) as [(r & ba & A & LA & E)|[[U [m' E]]|E]]; rewrite E in H; [|injection H as <- <-; left; auto|discriminate].
  cbn [new_merger _file2 _domFile] in H.
  destruct (open2_cases (mkMerger (Some r) None 2) (contents d b)) as [(s & bb & B & LB & F)|[[U [m' F]]|F]]; rewrite F in H; [|injection H as <- <-; left; auto|discriminate].
  cbn [_file1 _domFile] in H. right. exists r, s. split; [exists ba; auto|]. split; [exists bb; auto|].
  destruct (mergeFiles _) as [m' [text|]|m' x|] eqn:M; [| | |discriminate].
  - right. right. exists m', text. split; [reflexivity|]. destruct (may_write d t) eqn:W.
    + destruct (saved d t text W) as [d1 [S O]]. rewrite S in H. injection H as <- <-. left. auto.
    + rewrite (not_saved _ _ _ W) in H. injection H as <- <-. right. auto.
  - injection H as <- <-. right. left. eauto.
  - left. destruct (is_gear_exception x) eqn:G; injection H as <- <-; (split; [reflexivity|]); exists m', x; rewrite G; auto.
Qed.
Lemma merge_only_target : forall d args e d', merge_main d args = Ran e d' ->
  same_files d d' \/ exists a b t rest bytes, args = a :: b :: t :: rest /\ e = Status 0 /\ may_write d t = true /\ only_written d t bytes d'.
Proof.
  intros d [|a [|b [|t rest]]] e d' H; try (injection H as <- <-; left; apply same_refl).
  destruct (merge_ends _ _ _ _ _ _ _ H) as [(-> & -> & _)|(r & s & _ & _ & [[-> _]|[[-> _]|(m' & x & _ & [(W & -> & O)|(_ & _ & ->)])]])];
    try (left; apply same_refl). right. exists a, b, t, rest, x. auto.
Qed.
Lemma merge_unreadable : forall d a b t rest, unreadable d a \/ (exists r, holds d a r) /\ unreadable d b ->
  merge_main d (a :: b :: t :: rest) = Ran (Status 2) d.
Proof.
  intros d a b t rest [U|[[r [ba [A LA]]] U]]; unfold merge_main; cbv zeta.
  - destruct U as [U|(bytes & doc & U & L)]; rewrite U; [reflexivity|]. cbn [open1]. unfold setFile1. now rewrite L.
  - rewrite A. cbn [open1]. unfold setFile1. rewrite LA. destruct U as [U|(bytes & doc & U & L)]; rewrite U; [reflexivity|]. cbn [open2]. unfold setFile2. now rewrite L.
Qed.
Lemma merge_runs : forall d a b t rest r s, holds d a r -> holds d b s ->
  merge_main d (a :: b :: t :: rest) =
    match mergeFiles (mkMerger (Some r) (Some s) 2) with
    | SUB => Undefined
    | SThrow _ e => if is_gear_exception e then Ran (Status 0) d else Ran (Terminated e) d
    | SOk _ None => Ran (Status 1) d
    | SOk _ (Some bytes) => Ran (Status (if may_write d t then 0 else 1)) (snd (SaveFile d t bytes))
    end.
Proof.
  intros d a b t rest r s [ba [A LA]] [bb [B LB]]. unfold merge_main. cbv zeta. rewrite A, B. cbn [open1 open2]. unfold setFile1. rewrite LA. cbn [new_merger _file2 _domFile].
  unfold setFile2. rewrite LB. cbn [_file1 _domFile]. destruct (mergeFiles _) as [m' [text|]|m' x|]; try reflexivity.
  unfold SaveFile. destruct (may_write d t); reflexivity.
Qed.
Lemma merge_status : forall d a b t rest r s, holds d a r -> holds d b s -> sound_doc r -> sound_doc s ->
  (merge_main d (a :: b :: t :: rest) = Ran (Status 1) d <->
   ~ (gear_document r /\ gear_document s) \/
   may_write d t = false /\ exists m text, mergeFiles (mkMerger (Some r) (Some s) 2) = SOk m (Some text)).
Proof.
  intros d a b t rest r s A B Sr Ss. rewrite (merge_runs _ _ _ _ _ _ _ A B). split.
  - destruct (mergeFiles _) as [m' [text|]|m' x|] eqn:M; try discriminate.
    + intros H. right. destruct (may_write d t) eqn:W; [discriminate|]. eauto.
    + intros _. left. exact (merge_not_gear _ _ _ Sr Ss M).
    + destruct (is_gear_exception x); discriminate.
  - intros [N|[W (m & text & M)]].
    + destruct (not_gear_not_merged _ _ Sr Ss N) as [m' ->]. reflexivity.
    + rewrite M, W. rewrite (not_saved _ _ _ W). reflexivity.
Qed.

(** ** testXMLCopy *)
Lemma copy_runs : forall d a b g, geometry_in d a g ->
  copy_main d [a; b] = match createXMLFile g with UB => Undefined | Throw e => Ran (Terminated e) d | Ok bytes => Ran (Status 0) (snd (SaveFile d b bytes)) end.
Proof. intros d a b g G. unfold copy_main. rewrite G. reflexivity. Qed.
Lemma created : forall o st g, createGearMgr None o = SOk st g -> st = Some g.
Proof. intros o st g H. unfold createGearMgr in H. destruct (load o); try discriminate. now injection H as <- <-. Qed.
Lemma copy_only_target : forall d args e d', copy_main d args = Ran e d' ->
  same_files d d' \/ exists a b bytes g, args = [a; b] /\ e = Status 0 /\ may_write d b = true /\ geometry_in d a g /\ createXMLFile g = Ok bytes /\ only_written d b bytes d'.
Proof.
  intros d [|a [|b [|c rest]]] e d' H; try (injection H as <- <-; left; apply same_refl). unfold copy_main in H.
  destruct (createGearMgr None (contents d a)) as [st g|st x|] eqn:G; [|injection H as <- <-; left; apply same_refl|discriminate].
  pose proof (created _ _ _ G) as ->. destruct (createXMLFile g) as [bytes|x|] eqn:W; [|injection H as <- <-; left; apply same_refl|discriminate].
  injection H as <- <-. destruct (may_write d b) eqn:M; [|rewrite (not_saved _ _ _ M); left; apply same_refl].
  right. exists a, b, bytes, g. destruct (saved d b bytes M) as [d1 [-> O]]. auto 6.
Qed.
Lemma copy_unreadable : forall d a b, unreadable d a -> exists e, copy_main d [a; b] = Ran (Terminated e) d.
Proof.
  intros d a b U. unfold copy_main, createGearMgr, load. destruct U as [->|(bytes & doc & -> & L)]; [eauto|]. rewrite L. eauto.
Qed.
Lemma copy_writes : forall d a b g bytes, geometry_in d a g -> createXMLFile g = Ok bytes -> may_write d b = true ->
  exists d', copy_main d [a; b] = Ran (Status 0) d' /\ only_written d b bytes d'.
Proof.
  intros d a b g bytes G W M. rewrite (copy_runs _ _ _ _ G), W. destruct (saved d b bytes M) as [d1 [-> O]]. eauto.
Qed.
Lemma built_geometry : forall d a g, geometry_in d a g -> exists h, g = GearXmlModel.built h.
Proof.
  intros d a g G. unfold geometry_in in G. destruct (contents d a) as [s|] eqn:C; [|discriminate]. apply loads_iff in G. destruct G as (root & cs & _ & _ & ->). eauto.
Qed.
Lemma copy_loads : forall d a b g, geometry_in d a g -> texts_ok g -> all_come_back g -> may_write d b = true ->
  exists bytes d' g', copy_main d [a; b] = Ran (Status 0) d' /\ only_written d b bytes d' /\ geometry_in d' b g' /\
    loaded_apart_from_calorimeters g g' /\ calorimeters_loaded g g'.
Proof.
  intros d a b g G T B M. destruct (built_geometry _ _ _ G) as [h ->]. destruct (proj2 (round_trip h T) B) as (file & g' & W & L).
  destruct (copy_writes _ _ b _ _ G W M) as (d' & R & O). exists file, d', g'. split; [exact R|]. split; [exact O|].
  split; [unfold geometry_in; now rewrite (proj1 O)|]. exact (slots_loaded h file g' T W L).
Qed.
Lemma copy_same : forall d a b g, geometry_in d a g -> texts_ok g -> g_name g <> ""%string -> (forall s, fits g s) -> all_survive g -> may_write d b = true ->
  exists bytes d' g', copy_main d [a; b] = Ran (Status 0) d' /\ only_written d b bytes d' /\ geometry_in d' b g' /\ same_content g g'.
Proof.
  intros d a b g G T N F S M. destruct (built_geometry _ _ _ G) as [h ->]. destruct (all_same h T N F S) as (file & g' & W & L & E).
  destruct (copy_writes _ _ b _ _ G W M) as (d' & R & O). exists file, d', g'. split; [exact R|]. split; [exact O|].
  split; [unfold geometry_in; now rewrite (proj1 O) | exact E].
Qed.
Lemma copy_three : forall d a b c f g d1 d2 d3, geometry_in d a g -> texts_ok g -> all_settle g -> all_come_back g ->
  may_write d b = true -> may_write d c = true -> may_write d f = true -> c <> f ->
  copy_main d [a; b] = Ran (Status 0) d1 -> copy_main d1 [b; c] = Ran (Status 0) d2 -> copy_main d2 [c; f] = Ran (Status 0) d3 ->
  contents d3 f <> None /\ contents d3 f = contents d3 c.
Proof.
  intros d a b c f g d1 d2 d3 G T S B Mb Mc Mf N R1 R2 R3. destruct (built_geometry _ _ _ G) as [h ->]. destruct (proj2 (round_trip h T) B) as (file & g1 & W & L).
  destruct (settled_file h file g1 T S W L) as (file1 & g2 & W1 & L2 & _ & W2).
  destruct (copy_writes _ _ b _ _ G W Mb) as (d1' & R & O1). rewrite R in R1. injection R1 as ->.
  assert (G1 : geometry_in d1 b g1) by (unfold geometry_in; now rewrite (proj1 O1)).
  assert (Mc1 : may_write d1 c = true) by now rewrite (proj2 (proj2 O1)).
  destruct (copy_writes _ _ c _ _ G1 W1 Mc1) as (d2' & R' & O2). rewrite R' in R2. injection R2 as ->.
  assert (G2 : geometry_in d2 c g2) by (unfold geometry_in; now rewrite (proj1 O2)).
  assert (Mf2 : may_write d2 f = true) by now rewrite (proj2 (proj2 O2)), (proj2 (proj2 O1)).
  destruct (copy_writes _ _ f _ _ G2 W2 Mf2) as (d3' & R'' & O3). rewrite R'' in R3. injection R3 as ->.
  rewrite (proj1 O3). split; [discriminate|]. rewrite (proj1 (proj2 O3)) by congruence. rewrite (proj1 O2). reflexivity.
Qed.

(** ** printParameters *)
Lemma print_all : forall ord d a rest g, geometry_in d a g -> printable g ->
  exists before after out, print_main ord d (a :: rest) = Printed 0 (before ++ out ++ after) /\ everything_in ord g default_format out.
Proof.
  intros ord d a rest g G P. unfold print_main. cbv zeta. rewrite G. unfold then_, endl, text, emit. cbn [st_out st_fm app].
  match goal with |- context [print_mgr ord g ?s] => destruct (everything_printed ord g s P) as [l [E V]]; rewrite E end. cbn [st_out st_fm] in *.
  eexists _, _, l. rewrite <- app_assoc. split; [reflexivity | exact V].
Qed.
Lemma unexpected_ok : forall e s, exists s', gear_unexpected e s = SOk s' tt /\ exists l, st_out s' = st_out s ++ l.
Proof.
  intros e s. eexists. split; [reflexivity|]. cbn. eexists. rewrite <- !app_assoc. reflexivity.
Qed.
Lemma print_status : forall ord d args n out, print_main ord d args = Printed n out -> n = 0%Z \/ n = 1%Z.
Proof.
  intros ord d [|a rest] n out H; unfold print_main in H; cbv zeta in H; [injection H as <- _; auto|].
  destruct (createGearMgr None (contents d a)) as [st g|st e|]; [| |discriminate].
  - destruct (_ _) as [s u|s e|] in H; [injection H as <- _; auto| |discriminate].
    destruct (unexpected_ok e s) as [s' [E _]]. rewrite E in H. injection H as <- _. auto.
  - destruct (unexpected_ok e (mkSt [] default_format)) as [s' [E _]]. rewrite E in H. injection H as <- _. auto.
Qed.
Lemma print_zero : forall ord d args out, print_main ord d args = Printed 0 out ->
  exists a rest g s', args = a :: rest /\ geometry_in d a g /\ exists s, print_mgr ord g s = SOk s' tt.
Proof.
  intros ord d [|a rest] out H; unfold print_main in H; cbv zeta in H; [discriminate|].
  destruct (createGearMgr None (contents d a)) as [st g|st e|] eqn:G; [| |discriminate].
  - pose proof (created _ _ _ G) as ->. unfold then_, endl, text, emit in H. cbn [st_out st_fm app] in H.
    match type of H with context [print_mgr ord g ?s] => destruct (print_mgr ord g s) as [s' []|s' e|] eqn:E end; [|destruct (unexpected_ok e s') as [x [Ex _]]; unfold gear_unexpected, then_, endl, text, emit in *; discriminate|discriminate].
    exists a, rest, g, s'. split; [reflexivity|]. split; [exact G|]. eauto.
  - destruct (unexpected_ok e (mkSt [] default_format)) as [s' [E _]]. rewrite E in H. discriminate.
Qed.
Lemma print_unreadable : forall ord d a rest, unreadable d a -> exists out, print_main ord d (a :: rest) = Printed 1 out.
Proof.
  intros ord d a rest U. unfold print_main, createGearMgr, load. destruct U as [->|(bytes & doc & -> & L)]; [|rewrite L]; eexists; reflexivity.
Qed.
Lemma print_stops : forall ord d a rest g o h, geometry_in d a g -> others_printable g -> g_ftd g = Some o -> ftd_small o h -> (8 <= List.length h)%nat ->
  exists out, print_main ord d (a :: rest) = Printed 1 out.
Proof.
  intros ord d a rest g o h G P F S L. unfold print_main. cbv zeta. rewrite G. unfold then_, endl, text, emit. cbn [st_out st_fm app].
  match goal with |- context [print_mgr ord g ?s] => destruct (proj1 (ftd_stops ord g s o h P F S L)) as [s' [e [E _]]]; rewrite E end.
  eexists. reflexivity.
Qed.

Lemma copy_identical : forall d a b h, let g := GearXmlModel.built h in texts_ok g -> g_name g <> ""%string -> (forall s, fits g s) -> all_survive g ->
  createXMLFile g = match contents d a with Some bytes => Ok bytes | None => UB end -> may_write d b = true ->
  exists d' bytes, copy_main d [a; b] = Ran (Status 0) d' /\ contents d a = Some bytes /\ only_written d b bytes d'.
Proof.
  intros d a b h g T N F S W M. destruct (all_same h T N F S) as (file & g' & W' & L & E). fold g in W', E.
  destruct (contents d a) as [bytes|] eqn:C; [|rewrite W' in W; discriminate]. rewrite W' in W. injection W as ->.
  assert (G : geometry_in d a g') by (unfold geometry_in; now rewrite C).
  destruct (built_geometry _ _ _ G) as [h' E'].
  assert (W2 : createXMLFile g' = Ok bytes).
  { rewrite <- W'. apply file_same; [exact E|..].
    - apply map_equal; [rewrite E'; apply (inv_generic _ (inv_built h')) | apply (inv_generic _ (inv_built h)) | apply E].
    - apply map_equal; [rewrite E'; apply (inv_mat _ (inv_built h')) | apply (inv_mat _ (inv_built h)) | apply E]. }
  destruct (copy_writes _ _ b _ _ G W2 M) as (d' & R & O). exists d', bytes. auto.
Qed.
