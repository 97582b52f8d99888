(** Proofs about merging whole files. *)
From Coq Require Import ZArith List String Ascii Bool Lia PeanoNat.
From Verif Require Import Base XmlModel XmlSpec XmlProofs HxModel HxProofs ParXmlProofs MergeModel MergeSpec MergeProofs.
Import ListNotations.
Open Scope list_scope.

Lemma Value_with : forall d ch, Value (with_children d ch) = Value d.
Proof. intros [n a c| | | |] ch; reflexivity. Qed.
Lemma change_keeps : forall v f l, (forall n, first_of v l = Some n -> keeps n (f n)) -> Forall2 keeps l (change_first v f l).
Proof.
  intros v f l. induction l as [|c t IH]; intros H; [constructor|]. cbn in *. destruct (String.eqb (Value c) v).
  - constructor; [apply H; reflexivity|]. apply Forall2_refl. constructor.
  - constructor; [constructor|]. apply IH. exact H.
Qed.
Lemma first_of_change_same : forall v f l n, (forall n, Value (f n) = Value n) -> first_of v l = Some n -> first_of v (change_first v f l) = Some (f n).
Proof.
  intros v f l n Hf. unfold first_of. induction l as [|c t IH]; intros H; [discriminate|]. cbn in *. destruct (String.eqb (Value c) v) eqn:E; cbn.
  - rewrite Hf, E. congruence.
  - rewrite E. auto.
Qed.
Lemma first_of_change_other : forall v w f l, (forall n, Value (f n) = Value n) -> v <> w -> first_of v (change_first w f l) = first_of v l.
Proof.
  intros v w f l Hf N. unfold first_of. induction l as [|c t IH]; [reflexivity|]. cbn. destruct (String.eqb_spec (Value c) w) as [E|E]; cbn.
  - rewrite Hf. destruct (String.eqb_spec (Value c) v); [congruence|reflexivity].
  - destruct (String.eqb (Value c) v); [reflexivity|exact IH].
Qed.
Lemma change_section : forall v l n out, section v l = Some n -> HxModel.is_elem n = true ->
  section_set v out l (change_first v (fun d => with_children d out) l).
Proof.
  intros v l n out. unfold section. induction l as [|c t IH]; intros F E; [discriminate|]. cbn in *. destruct (String.eqb_spec (Value c) v) as [V|V].
  - injection F as ->. destruct n as [n a ch| | | |]; try discriminate. cbn. apply (Section v out [] n a ch t V). intros c [].
  - specialize (IH F E). inversion IH as [a n' at_ ch b Hn Ha E1 E2]. apply (Section v out (c :: a) n' at_ ch b Hn).
    intros x [<-|I]; auto.
Qed.

Lemma merge_section_keeps : forall v g1 g g', merge_section v g1 g = Ok g' -> Forall2 keeps g g'.
Proof.
  intros v g1 g g' H. unfold merge_section in H. destruct (first_of v g1) as [n1|]; [|discriminate].
  destruct (first_of v g) as [n|] eqn:F.
  - destruct (mergeNode n1 (children n)) as [ch|e|] eqn:M; cbn in H; try discriminate. injection H as <-. apply change_keeps.
    intros n' F'. rewrite F in F'. injection F' as <-. apply with_children_keeps. apply mergeNode_keeps in M. exact M.
  - destruct (children n1); [|discriminate]. injection H as <-. apply Forall2_refl. constructor.
Qed.
Lemma merge_section_other : forall v w g1 g g', merge_section v g1 g = Ok g' -> w <> v -> first_of w g' = first_of w g.
Proof.
  intros v w g1 g g' H N. unfold merge_section in H. destruct (first_of v g1) as [n1|]; [|discriminate].
  destruct (first_of v g) as [n|] eqn:F.
  - destruct (mergeNode n1 (children n)) as [ch|e|] eqn:M; cbn in H; try discriminate. injection H as <-.
    apply first_of_change_other; [intros; apply Value_with|exact N].
  - destruct (children n1); [|discriminate]. injection H as <-. reflexivity.
Qed.
Lemma merge_section_found : forall v g1 g g' n1 n, merge_section v g1 g = Ok g' -> first_of v g1 = Some n1 -> first_of v g = Some n ->
  exists ch, mergeNode n1 (children n) = Ok ch /\ first_of v g' = Some (with_children n ch).
Proof.
  intros v g1 g g' n1 n H F1 F. unfold merge_section in H. rewrite F1, F in H.
  destruct (mergeNode n1 (children n)) as [ch|e|] eqn:M; cbn in H; try discriminate. injection H as <-. exists ch. split; [reflexivity|].
  apply (first_of_change_same v (fun d => with_children d ch)); [intros; apply Value_with|exact F].
Qed.

(** the three parts in turn *)
Definition merge_parts (g1 g : list xnode) : result (list xnode) :=
  rbind (merge_section "global" g1 g) (fun g => rbind (merge_section "detectors" g1 g) (fun g => merge_section "materials" g1 g)).
Lemma merge_parts_ok : forall g1 g g', merge_parts g1 g = Ok g' -> exists a b, merge_section "global" g1 g = Ok a /\
  merge_section "detectors" g1 a = Ok b /\ merge_section "materials" g1 b = Ok g'.
Proof.
  intros g1 g g' H. unfold merge_parts in H. destruct (merge_section "global" g1 g) as [a|e|] eqn:E1; cbn in H; try discriminate.
  destruct (merge_section "detectors" g1 a) as [b|e|] eqn:E2; cbn in H; try discriminate. eauto.
Qed.
(** the merge of two documents *)
Definition merge_docs (f1 f2 : list xnode) : result (option (list xnode)) :=
  match first_of "gear" f1, first_of "gear" f2 with
  | Some gear1, Some gear =>
      match first_of "detectors" (children gear1), first_of "detectors" (children gear) with
      | Some _, Some _ => rmap (fun g => Some (change_first "gear" (fun d => with_children d g) f2)) (merge_parts (children gear1) (children gear))
      | _, _ => Ok None
      end
  | _, _ => Ok None
  end.
Definition after_merge (m : merger) : merger :=
  if (_domFile m =? 1)%Z then mkMerger (_file2 m) (_file1 m) 1 else m.
Definition to_outcome (m : merger) (r : result (option (list xnode))) : sres merger (option string) :=
  match r with Ok o => SOk m (option_map print_doc o) | Throw e => SThrow m e | UB => SUB end.
Lemma mergeFiles_eq : forall m r d, recessive m = Some r -> dominant m = Some d -> sound_doc r -> sound_doc d ->
  mergeFiles m = to_outcome (after_merge m) (merge_docs r d).
Proof.
  intros [f1 f2 n] r d R D Sr Sd. unfold recessive, dominant, after_merge in *. cbn [_file1 _file2 _domFile] in *.
  unfold mergeFiles, correctDominantFile. cbn [_file1 _file2 _domFile].
  assert (G : forall m', _file1 m' = Some r -> _file2 m' = Some d ->
    match _file1 m', _file2 m' with
    | Some f1, Some f2 =>
        let merged := clone_doc f2 in
        match first_of "gear" f1, first_of "gear" merged with
        | Some gear1, Some gear =>
            match first_of "detectors" (children gear1), first_of "detectors" (children gear) with
            | Some _, Some _ =>
                match rbind (merge_section "global" (children gear1) (children gear)) (fun g =>
                      rbind (merge_section "detectors" (children gear1) g) (fun g =>
                      merge_section "materials" (children gear1) g)) with
                | Ok g => SOk m' (Some (print_doc (change_first "gear" (fun d => with_children d g) merged)))
                | Throw e => SThrow m' e
                | UB => SUB
                end
            | _, _ => SOk m' None
            end
        | _, _ => SOk m' None
        end
    | _, _ => SUB
    end = to_outcome m' (merge_docs r d)).
  { intros m' -> ->. cbv zeta. rewrite (clone_doc_sound d Sd). unfold merge_docs. destruct (first_of "gear" r) as [gear1|]; [|reflexivity].
    destruct (first_of "gear" d) as [gear|]; [|reflexivity]. destruct (first_of "detectors" (children gear1)); [|reflexivity].
    destruct (first_of "detectors" (children gear)); [|reflexivity]. unfold merge_parts.
    destruct (rbind (merge_section "global" (children gear1) (children gear)) _); reflexivity. }
  destruct (n =? 1)%Z eqn:N.
  - subst f1 f2. rewrite (clone_doc_sound r Sr), !(clone_doc_sound d Sd). apply Z.eqb_eq in N. subst n. apply G; reflexivity.
  - subst f1 f2. apply G; reflexivity.
Qed.
Lemma mergeFiles_files : forall m m' o, mergeFiles m = SOk m' o -> exists r d, recessive m = Some r /\ dominant m = Some d.
Proof.
  intros [f1 f2 n] m' o H. unfold recessive, dominant. unfold mergeFiles, correctDominantFile in H. cbn [_file1 _file2 _domFile] in *.
  destruct (n =? 1)%Z; destruct f1, f2; try discriminate; eauto.
Qed.

(** ** what the merged file contains *)
Lemma merged_file_keeps : forall m r d m' text, docs_of m r d -> mergeFiles m = SOk m' (Some text) ->
  exists doc, text = print_doc doc /\ Forall2 keeps d doc.
Proof.
  intros m r d m' text [R [D [Sr Sd]]] H. rewrite (mergeFiles_eq m r d R D Sr Sd) in H. unfold merge_docs in H.
  destruct (first_of "gear" r) as [gear1|]; [|discriminate]. destruct (first_of "gear" d) as [gear|] eqn:G; [|discriminate].
  destruct (first_of "detectors" (children gear1)); [|discriminate]. destruct (first_of "detectors" (children gear)); [|discriminate].
  destruct (merge_parts (children gear1) (children gear)) as [g|e|] eqn:P; cbn in H; try discriminate. injection H as _ <-.
  eexists. split; [reflexivity|]. apply change_keeps. intros n E. rewrite G in E. injection E as <-. apply with_children_keeps.
  destruct (merge_parts_ok _ _ _ P) as [a [b [E1 [E2 E3]]]]. exists g, []. split; [rewrite app_nil_r; reflexivity|].
  eapply Forall2_keeps_trans; [|eapply merge_section_keeps; exact E3]. eapply Forall2_keeps_trans; [|eapply merge_section_keeps; exact E2].
  eapply merge_section_keeps; exact E1.
Qed.

Lemma sound_first : forall v l n, sound_doc l -> first_of v l = Some n -> sound n.
Proof. intros v l n H F. unfold first_of in F. apply find_some in F. apply H. tauto. Qed.
Lemma sound_kids : forall n, sound n -> sound_doc (children n).
Proof. intros n H c I. eapply sound_children; eassumption. Qed.

Lemma children_with : forall d ch, HxModel.is_elem d = true -> children (with_children d ch) = ch.
Proof. intros [n a c| | | |] ch H; try discriminate. reflexivity. Qed.
Lemma merged_file_takes : forall m r d m' text v gr gd sr sd x, docs_of m r d -> mergeFiles m = SOk m' (Some text) -> merged_part v ->
  section "gear" r = Some gr -> section v (children gr) = Some sr ->
  section "gear" d = Some gd -> HxModel.is_elem gd = true -> section v (children gd) = Some sd -> HxModel.is_elem sd = true ->
  In x (children sr) -> (forall y, In y (children sd) -> label y <> label x) ->
  exists doc go so, text = print_doc doc /\ section "gear" doc = Some go /\ section v (children go) = Some so /\ In x (children so).
Proof.
  intros m r d m' text v gr gd sr sd x [R [D [Sr Sd]]] H V G1 S1 G2 Eg S2 Es Ix NL.
  rewrite (mergeFiles_eq m r d R D Sr Sd) in H. unfold merge_docs in H.
  change (first_of "gear" r = Some gr) in G1. change (first_of "gear" d = Some gd) in G2.
  change (first_of v (children gr) = Some sr) in S1. change (first_of v (children gd) = Some sd) in S2.
  rewrite G1, G2 in H.
  destruct (first_of "detectors" (children gr)); [|discriminate]. destruct (first_of "detectors" (children gd)); [|discriminate].
  destruct (merge_parts (children gr) (children gd)) as [g|e|] eqn:P; cbn in H; try discriminate. injection H as _ <-.
  destruct (merge_parts_ok _ _ _ P) as [a [b [E1 [E2 E3]]]].
  assert (Q : exists so, first_of v g = Some so /\ In x (children so)).
  { assert (Q1 : forall g0 g1, merge_section v (children gr) g0 = Ok g1 -> first_of v g0 = Some sd -> exists so, first_of v g1 = Some so /\ In x (children so)).
    { intros g0 g1 M F0. destruct (merge_section_found v _ _ _ _ _ M S1 F0) as [ch [M1 M2]]. eexists. split; [exact M2|].
      assert (So : sound sr) by (eapply sound_first; [eapply sound_kids, sound_first; [exact Sr|exact G1]|exact S1]).
      rewrite children_with by exact Es. exact (mergeNode_new sr (children sd) ch x So M1 Ix (proj2 (count_zero x (children sd)) NL)). }
    destruct V as [-> | [-> | ->]].
    - destruct (Q1 _ _ E1 S2) as [so [F I]]. exists so. split; [|exact I].
      rewrite (merge_section_other _ "global" _ _ _ E3), (merge_section_other _ "global" _ _ _ E2) by discriminate. exact F.
    - destruct (Q1 _ _ E2) as [so [F I]]; [rewrite (merge_section_other _ "detectors" _ _ _ E1) by discriminate; exact S2|].
      exists so. split; [|exact I]. rewrite (merge_section_other _ "detectors" _ _ _ E3) by discriminate. exact F.
    - apply (Q1 _ _ E3). rewrite (merge_section_other _ "materials" _ _ _ E2), (merge_section_other _ "materials" _ _ _ E1) by discriminate. exact S2. }
  destruct Q as [so [F I]]. exists (change_first "gear" (fun d => with_children d g) d), (with_children gd g), so.
  split; [reflexivity|]. split; [apply (first_of_change_same "gear" (fun d => with_children d g)); [intros; apply Value_with|exact G2]|].
  rewrite children_with by exact Eg. split; assumption.
Qed.

(** the exact result *)
Lemma merge_section_merges : forall v g1 g n1 n, first_of v g1 = Some n1 -> first_of v g = Some n -> sound n1 -> HxModel.is_elem n = true ->
  mergeable (children n1) (children n) -> exists out g', merge_section v g1 g = Ok g' /\ merged (children n1) (children n) out /\ section_set v out g g'.
Proof.
  intros v g1 g n1 n F1 F So E M. destruct (mergeNode_merges n1 (children n) So M) as [out [M1 M2]].
  exists out. unfold merge_section. rewrite F1, F, M1. cbn. eexists. split; [reflexivity|]. split; [exact M2|]. eapply change_section; eassumption.
Qed.
Lemma merged_file_exact : forall m r d gr gd r1 r2 r3 d1 d2 d3, docs_of m r d ->
  section "gear" r = Some gr -> section "global" (children gr) = Some r1 -> section "detectors" (children gr) = Some r2 -> section "materials" (children gr) = Some r3 ->
  section "gear" d = Some gd -> section "global" (children gd) = Some d1 -> section "detectors" (children gd) = Some d2 -> section "materials" (children gd) = Some d3 ->
  (forall n, In n [gd; d1; d2; d3] -> HxModel.is_elem n = true) ->
  mergeable (children r1) (children d1) -> mergeable (children r2) (children d2) -> mergeable (children r3) (children d3) ->
  exists m' doc o1 o2 o3 a b c, mergeFiles m = SOk m' (Some (print_doc doc)) /\
    merged (children r1) (children d1) o1 /\ merged (children r2) (children d2) o2 /\ merged (children r3) (children d3) o3 /\
    section_set "global" o1 (children gd) a /\ section_set "detectors" o2 a b /\ section_set "materials" o3 b c /\ section_set "gear" c d doc.
Proof.
  intros m r d gr gd r1 r2 r3 d1 d2 d3 [R [D [Sr Sd]]] G1 A1 A2 A3 G2 B1 B2 B3 El M1 M2 M3.
  assert (Sg : sound_doc (children gr)) by (eapply sound_kids, sound_first; [exact Sr|exact G1]).
  rewrite (mergeFiles_eq m r d R D Sr Sd). unfold merge_docs.
  change (first_of "gear" r = Some gr) in G1. change (first_of "gear" d = Some gd) in G2. rewrite G1, G2.
  change (first_of "detectors" (children gr) = Some r2) in A2. change (first_of "detectors" (children gd) = Some d2) in B2. rewrite A2, B2.
  destruct (merge_section_merges "global" _ _ _ _ A1 B1 (sound_first _ _ _ Sg A1) (El d1 ltac:(cbn; tauto)) M1) as [o1 [a [S1 [O1 T1]]]].
  assert (B2' : first_of "detectors" a = Some d2) by (rewrite (merge_section_other _ "detectors" _ _ _ S1) by discriminate; exact B2).
  destruct (merge_section_merges "detectors" _ _ _ _ A2 B2' (sound_first _ _ _ Sg A2) (El d2 ltac:(cbn; tauto)) M2) as [o2 [b [S2 [O2 T2]]]].
  assert (B3' : first_of "materials" b = Some d3).
  { rewrite (merge_section_other _ "materials" _ _ _ S2), (merge_section_other _ "materials" _ _ _ S1) by discriminate. exact B3. }
  destruct (merge_section_merges "materials" _ _ _ _ A3 B3' (sound_first _ _ _ Sg A3) (El d3 ltac:(cbn; tauto)) M3) as [o3 [c [S3 [O3 T3]]]].
  unfold merge_parts. rewrite S1. cbn [rbind]. rewrite S2. cbn [rbind]. rewrite S3. cbn [rmap to_outcome option_map].
  eexists _, _, o1, o2, o3, a, b, c. split; [reflexivity|]. repeat (split; [assumption|]). eapply change_section; [exact G2|]. apply El. left. reflexivity.
Qed.

(** ** what does not reach the merged file *)
Lemma only_parts : forall m m2 r r2 d gr gr2, docs_of m r d -> docs_of m2 r2 d -> section "gear" r = Some gr -> section "gear" r2 = Some gr2 ->
  (forall v, merged_part v -> option_map children (section v (children gr)) = option_map children (section v (children gr2))) ->
  forall m' text, mergeFiles m = SOk m' (Some text) -> exists m2', mergeFiles m2 = SOk m2' (Some text).
Proof.
  intros m m2 r r2 d gr gr2 [R [D [Sr Sd]]] [R2 [D2 [Sr2 _]]] G G2 Eq m' text H.
  rewrite (mergeFiles_eq m2 r2 d R2 D2 Sr2 Sd). rewrite (mergeFiles_eq m r d R D Sr Sd) in H. unfold merge_docs in *.
  change (first_of "gear" r = Some gr) in G. change (first_of "gear" r2 = Some gr2) in G2. rewrite G in H. rewrite G2.
  destruct (first_of "gear" d) as [gd|]; [|discriminate].
  pose proof (Eq "detectors"%string ltac:(unfold merged_part; tauto)) as Ed.
  assert (P : merge_parts (children gr) (children gd) = merge_parts (children gr2) (children gd)).
  { assert (MS : forall v g, merged_part v -> merge_section v (children gr) g = merge_section v (children gr2) g).
    { intros v g V. pose proof (Eq v V) as E. unfold section in E. unfold merge_section, first_of.
      destruct (find (fun c => String.eqb (Value c) v) (children gr)) as [n|], (find (fun c => String.eqb (Value c) v) (children gr2)) as [n2|]; try discriminate; [|reflexivity].
      cbn in E. injection E as E. rewrite E. destruct (find _ g) as [x|]; [|reflexivity].
      replace (mergeNode n2 (children x)) with (mergeNode n (children x)); [reflexivity|].
      assert (T : forall k k2 z, children k = children k2 -> mergeNode k z = mergeNode k2 z).
      { intros k k2 z Ek. destruct k as [? ? c1| | | |], k2 as [? ? c2| | | |]; cbn [children] in Ek; subst;
          rewrite ?mergeNode_turns; cbn [rfold rmap fst]; reflexivity. }
      apply T. exact E. }
    unfold merge_parts. rewrite MS by (unfold merged_part; tauto). destruct (merge_section "global" (children gr2) (children gd)) as [a| |]; cbn [rbind]; try reflexivity.
    rewrite MS by (unfold merged_part; tauto). destruct (merge_section "detectors" (children gr2) a) as [b| |]; cbn [rbind]; try reflexivity.
    apply MS. unfold merged_part; tauto. }
  rewrite P in H. unfold section in Ed. unfold first_of in *.
  destruct (find _ (children gr)) as [n|]; [|discriminate]. destruct (find _ (children gr2)) as [n2|]; [|discriminate].
  destruct (find _ (children gd)) as [n3|]; [|discriminate].
  destruct (merge_parts (children gr2) (children gd)); cbn in *; try discriminate. injection H as _ <-. eexists. reflexivity.
Qed.

Lemma part_missing : forall m r d gr gd s1 s2 v, docs_of m r d -> section "gear" r = Some gr -> section "gear" d = Some gd ->
  section "detectors" (children gr) = Some s1 -> section "detectors" (children gd) = Some s2 -> merged_part v ->
  section v (children gr) = None -> forall m' o, mergeFiles m <> SOk m' o.
Proof.
  intros m r d gr gd s1 s2 v [R [D [Sr Sd]]] G G2 A1 A2 V N m' o H.
  rewrite (mergeFiles_eq m r d R D Sr Sd) in H. unfold merge_docs in H.
  change (first_of "gear" r = Some gr) in G. change (first_of "gear" d = Some gd) in G2.
  change (first_of "detectors" (children gr) = Some s1) in A1. change (first_of "detectors" (children gd) = Some s2) in A2. rewrite G, G2, A1, A2 in H.
  destruct (merge_parts (children gr) (children gd)) as [g|e|] eqn:P; cbn in H; try discriminate.
  destruct (merge_parts_ok _ _ _ P) as [a [b [E1 [E2 E3]]]].
  change (first_of v (children gr) = None) in N.
  destruct V as [-> | [-> | ->]]; [unfold merge_section in E1; rewrite N in E1|unfold merge_section in E2; rewrite N in E2|unfold merge_section in E3; rewrite N in E3]; discriminate.
Qed.

(** ** dominance *)
Lemma dominant_swap : forall a b, sound_doc a -> sound_doc b ->
  outcome (mergeFiles (mkMerger (Some a) (Some b) 1)) = outcome (mergeFiles (mkMerger (Some b) (Some a) 2)).
Proof.
  intros a b A B. rewrite (mergeFiles_eq (mkMerger (Some a) (Some b) 1) b a), (mergeFiles_eq (mkMerger (Some b) (Some a) 2) b a) by (assumption || reflexivity).
  destruct (merge_docs b a); reflexivity.
Qed.
Lemma dominant_twice : forall a b m', sound_doc a -> sound_doc b -> state_of (mergeFiles (mkMerger (Some a) (Some b) 1)) = Some m' ->
  outcome (mergeFiles m') = outcome (mergeFiles (mkMerger (Some a) (Some b) 2)).
Proof.
  intros a b m' A B H. rewrite (mergeFiles_eq (mkMerger (Some a) (Some b) 1) b a) in H by (assumption || reflexivity). cbn in H.
  assert (m' = mkMerger (Some b) (Some a) 1) by (destruct (merge_docs b a); cbn in H; congruence). subst m'.
  rewrite dominant_swap by assumption. reflexivity.
Qed.

(** ** lists with distinct names *)
Definition names (l : list xnode) : list string := map (fun x => fst (label x)) l.
Lemma label_name : forall x y, label x = label y -> fst (label x) = fst (label y).
Proof. congruence. Qed.
Lemma orderly_distinct : forall l, NoDup (names l) -> orderly l.
Proof.
  intros l ND. split.
  - intros a x b y c E L z Iz. exfalso. subst l. unfold names in ND. rewrite map_app in ND. cbn in ND.
    apply NoDup_remove_2 in ND. apply ND. apply in_or_app. right. rewrite map_app. apply in_or_app. right. left. rewrite L. reflexivity.
  - intros a x y c E L. exfalso. subst l. unfold names in ND. rewrite map_app in ND. cbn in ND.
    apply NoDup_remove_2 in ND. apply ND. apply in_or_app. right. left. rewrite L. reflexivity.
Qed.
Lemma count_distinct : forall l x, NoDup (names l) -> (count x l <= 1)%nat.
Proof.
  intros l x. induction l as [|y t IH]; intros ND; [unfold count; cbn; lia|]. inversion ND as [|? ? NI ND2]; subst.
  destruct (label_dec (label y) (label x)) as [E|E]; [|rewrite count_other_cons by exact E; auto].
  rewrite count_same_cons by exact E. enough (count x t = 0%nat) by lia. apply count_zero. intros z I L. apply NI.
  apply in_map_iff. exists z. split; [congruence|exact I].
Qed.
Lemma same_counts_distinct : forall a b, NoDup (names a) -> NoDup (names b) -> same_counts a b.
Proof. intros a b A B x _. left. split; apply count_distinct; assumption. Qed.

(** ** sound trees can be recognised *)
Fixpoint soundb (n : xnode) : bool :=
  match n with
  | XElem n a ch => allb nonul_char n && distinctb (map fst a) && forallb (fun kv => allb nonul_char (fst kv) && allb nonul_char (snd kv)) a && forallb soundb ch
  | XText s => allb nonul_char s
  | XComment s => allb nonul_char s
  | XUnknown s => allb nonul_char s
  | XDecl _ _ _ => true
  end.
Lemma soundb_sound : forall n, soundb n = true -> sound n.
Proof.
  induction n as [n a ch IH|s|s|s|v e s] using xnode_induct; cbn; intros H; constructor; try (apply nonul_iff; assumption).
  - rewrite !andb_true_iff in H. apply nonul_iff. tauto.
  - rewrite !andb_true_iff in H. apply distinctb_spec. tauto.
  - rewrite !andb_true_iff in H. intros k v I. destruct H as [[_ H] _]. rewrite forallb_forall in H. specialize (H _ I).
    apply andb_true_iff in H. rewrite !nonul_iff. exact H.
  - rewrite !andb_true_iff in H. intros c I. destruct H as [_ H]. rewrite forallb_forall in H. rewrite Forall_forall in IH. auto.
Qed.
Lemma sound_docb : forall l, forallb soundb l = true -> sound_doc l.
Proof. intros l H n I. apply soundb_sound. rewrite forallb_forall in H. auto. Qed.

(** ** files that cannot be merged, or lose something *)
Definition doc (det : list xnode) : list xnode :=
  [XElem "gear" [] [XElem "global" [] []; XElem "detectors" [] det; XElem "materials" [] []]].
Definition named_det (n : string) (ch : list xnode) : xnode := XElem "detector" [("name"%string, n)] ch.
Definition layer (r : string) : xnode := XElem "layer" [("r"%string, r)] [].
Definition load_both (a b : list xnode) : option merger :=
  match setFile1 new_merger (print_doc a) with
  | SOk m true => match setFile2 m (print_doc b) with SOk m true => Some m | _ => None end
  | _ => None
  end.
Lemma childless_crash : exists a b m, load_both a b = Some m /\ mergeFiles m = SUB.
Proof.
  exists (doc [named_det "TPC" []]), (doc [named_det "TPC" []]), (mkMerger (Some (doc [named_det "TPC" []])) (Some (doc [named_det "TPC" []])) 2).
  split; vm_compute; reflexivity.
Qed.
Lemma new_repeated_throws : forall x y n dch, sound n -> In x (children n) -> In y (children n) -> x <> y -> label x = label y ->
  (forall z, In z dch -> label z <> label x) -> forall out, mergeNode n dch <> Ok out.
Proof.
  intros x y n dch So Ix Iy Ne L N out H. pose proof (mergeNode_counts n dch out So H x Ix) as SC.
  rewrite (proj2 (count_zero x dch) N) in SC.
  assert (2 <= count x (children n))%nat; [|lia].
  revert Ix Iy. clear SC H So. generalize (children n). intros l. induction l as [|z t IH]; intros Ix Iy; [destruct Ix|].
  destruct Ix as [->|Ix], Iy as [->|Iy].
  - contradiction.
  - rewrite count_same_cons by reflexivity. assert (count x t <> 0)%nat; [|lia]. intros C. apply count_zero with (y := y) in C; [congruence|exact Iy].
  - rewrite count_same_cons by congruence. assert (count x t <> 0)%nat; [|lia]. intros C. apply count_zero with (y := x) in C; [congruence|exact Ix].
  - specialize (IH Ix Iy). destruct (label_dec (label z) (label x)) as [E|E]; [rewrite count_same_cons by exact E|rewrite count_other_cons by exact E]; lia.
Qed.
(** all attributes of a tree *)
Fixpoint attributes (n : xnode) : list (string * string) :=
  match n with XElem _ a ch => a ++ flat_map attributes ch | _ => [] end.
Lemma apart_lost : exists a b m m' out kv, load_both a b = Some m /\ mergeFiles m = SOk m' (Some (print_doc out)) /\
  In kv (flat_map attributes a) /\ (forall v, ~ In (fst kv, v) (flat_map attributes b)) /\ ~ In kv (flat_map attributes out).
Proof.
  set (g := XElem "gap" [] []).
  set (a := doc [named_det "X" [XElem "layer" [("a"%string, "1"%string)] []; g; XElem "layer" [("a"%string, "2"%string)] []]]).
  set (b := doc [named_det "X" [XElem "layer" [] []; g; XElem "layer" [] []]]).
  set (o := doc [named_det "X" [XElem "layer" [("a"%string, "1"%string)] []; g; XElem "layer" [] []]]).
  exists a, b, (mkMerger (Some a) (Some b) 2), (mkMerger (Some a) (Some b) 2), o, ("a"%string, "2"%string).
  split; [vm_compute; reflexivity|]. split; [vm_compute; reflexivity|]. split; [cbn; tauto|].
  split; cbn; [intros v H|intros H]; intuition discriminate.
Qed.
(** the contents of the other file are taken only below the three parts *)
Lemma field_lost : exists a b m m' out, load_both a b = Some m /\ mergeFiles m = SOk m' (Some (print_doc out)) /\
  (exists g f, section "gear" a = Some g /\ section "BField" (children g) = Some f) /\
  (forall g f, section "gear" out = Some g -> section "BField" (children g) <> Some f).
Proof.
  set (a := [XElem "gear" [] [XElem "global" [] []; XElem "BField" [] []; XElem "detectors" [] []; XElem "materials" [] []]]).
  exists a, (doc []), (mkMerger (Some a) (Some (doc [])) 2), (mkMerger (Some a) (Some (doc [])) 2), (doc []).
  split; [vm_compute; reflexivity|]. split; [vm_compute; reflexivity|].
  split; [eexists _, _; split; reflexivity|]. intros g f E. injection E as <-. discriminate.
Qed.
