(** Property theorems for C40: merging two files *)
From Coq Require Import ZArith List String Ascii Bool Lia.
From Verif Require Import Base XmlModel XmlSpec HxModel HxProofs MergeModel MergeSpec MergeProofs MergeProofs2.
Import ListNotations.
Open Scope list_scope.

(** Two files as users have them: the first describes a TPC and a field, the second a TPC with a
    drift length and a calorimeter. *)
Definition el (n : string) (a : list (string * string)) (ch : list xnode) : xnode := XElem n a ch.
Definition file_a : list xnode :=
  [el "gear" [] [el "global" [("detectorName", "A")%string] []; el "BField" [("z", "4")%string] [];
     el "detectors" [] [el "detector" [("name", "TPC"); ("id", "1")]%string [el "maxDriftLength" [("value", "10")]%string []; el "gas" [("value", "Ar")]%string []];
                        el "detector" [("name", "VXD")]%string [el "layers" [] []]];
     el "materials" [] []]].
Definition file_b : list xnode :=
  [el "gear" [] [el "global" [("detectorName", "B")%string] [];
     el "detectors" [] [el "detector" [("name", "TPC"); ("geartype", "T")]%string [el "maxDriftLength" [("value", "20")]%string []];
                        el "detector" [("name", "Ecal")]%string [el "layer" [] []; el "layer" [] []]];
     el "materials" [] []]].
Definition loaded (a b : list xnode) (n : Z) : option merger :=
  match setFile1 new_merger (print_doc a) with
  | SOk m true => match setFile2 m (print_doc b) with SOk m true => Some (makeDominant m n) | _ => None end
  | _ => None
  end.
Example files_load : loaded file_a file_b 2 = Some (mkMerger (Some file_a) (Some file_b) 2).
Proof. vm_compute. reflexivity. Qed.
Example files_sound : docs_of (mkMerger (Some file_a) (Some file_b) 2) file_a file_b.
Proof. split; [reflexivity|]. split; [reflexivity|]. split; apply sound_docb; reflexivity. Qed.
Definition dets (f : list xnode) : list xnode :=
  match section "gear" f with Some g => match section "detectors" (children g) with Some d => children d | None => [] end | None => [] end.
Lemma distinct_mergeable : forall r d, distinctb (names r) = true -> distinctb (names d) = true ->
  (forall i e x, nth_error d i = Some e -> counterpart r d i e = Some x -> named x -> children x <> []) ->
  (forall i e x, nth_error d i = Some e -> counterpart r d i e = Some x -> goes_down x -> mergeable (children x) (children e)) -> mergeable r d.
Proof.
  intros r d A B C D. apply distinctb_spec in A. apply distinctb_spec in B. constructor; auto; [apply orderly_distinct|apply same_counts_distinct]; assumption.
Qed.
Ltac each_child := intros i e x Hn Hc; repeat (destruct i as [|i]; [cbn in Hn; injection Hn as <-; vm_compute in Hc; try discriminate; injection Hc as <-|]);
  try (cbn in Hn; destruct i; discriminate).
Example detectors_mergeable : mergeable (dets file_a) (dets file_b).
Proof.
  apply distinct_mergeable; [reflexivity|reflexivity| |].
  - each_child; intros _; discriminate.
  - each_child; intros _. apply distinct_mergeable; [reflexivity|reflexivity| |]; each_child; intros G; cbn in *; try discriminate; destruct G as [G _]; discriminate.
Qed.
Example global_mergeable : mergeable [] [].
Proof. apply distinct_mergeable; [reflexivity|reflexivity| |]; each_child. Qed.
(** and what comes out *)
Example merged_detectors : exists m' text, mergeFiles (mkMerger (Some file_a) (Some file_b) 2) = SOk m' (Some text) /\
  text = print_doc [el "gear" [] [el "global" [("detectorName", "B")%string] [];
     el "detectors" [] [el "detector" [("name", "TPC"); ("geartype", "T"); ("id", "1")]%string [el "maxDriftLength" [("value", "20")]%string []; el "gas" [("value", "Ar")]%string []];
                        el "detector" [("name", "Ecal")]%string [el "layer" [] []; el "layer" [] []];
                        el "detector" [("name", "VXD")]%string [el "layers" [] []]];
     el "materials" [] []]].
Proof. eexists _, _. split; vm_compute; reflexivity. Qed.

(** Whatever two files are merged: if a file is written, it is the dominant one with attributes and elements added behind those that were there. *)
Theorem C40_dominant_kept : forall m r d m' text, docs_of m r d -> mergeFiles m = SOk m' (Some text) ->
  exists doc, text = print_doc doc /\ Forall2 keeps d doc.
Proof. exact merged_file_keeps. Qed.
Print Assumptions C40_dominant_kept.

(** Everything in the three merged parts of the other file that has no counterpart in the dominant file is in the merged file, unchanged. *)
Theorem C40_new_taken : forall m r d m' text v gr gd sr sd x, docs_of m r d -> mergeFiles m = SOk m' (Some text) -> merged_part v ->
  section "gear" r = Some gr -> section v (children gr) = Some sr ->
  section "gear" d = Some gd -> HxModel.is_elem gd = true -> section v (children gd) = Some sd -> HxModel.is_elem sd = true ->
  In x (children sr) -> (forall y, In y (children sd) -> label y <> label x) ->
  exists doc go so, text = print_doc doc /\ section "gear" doc = Some go /\ section v (children go) = Some so /\ In x (children so).
Proof. exact merged_file_takes. Qed.
Print Assumptions C40_new_taken.

(** Two files whose repeated elements agree and whose named common elements are not empty are merged, and the result is the tree the specification describes. *)
Theorem C40_exact : forall m r d gr gd r1 r2 r3 d1 d2 d3, docs_of m r d ->
  section "gear" r = Some gr -> section "global" (children gr) = Some r1 -> section "detectors" (children gr) = Some r2 -> section "materials" (children gr) = Some r3 ->
  section "gear" d = Some gd -> section "global" (children gd) = Some d1 -> section "detectors" (children gd) = Some d2 -> section "materials" (children gd) = Some d3 ->
  (forall n, In n [gd; d1; d2; d3] -> HxModel.is_elem n = true) ->
  mergeable (children r1) (children d1) -> mergeable (children r2) (children d2) -> mergeable (children r3) (children d3) ->
  exists m' doc o1 o2 o3 a b c, mergeFiles m = SOk m' (Some (print_doc doc)) /\
    merged (children r1) (children d1) o1 /\ merged (children r2) (children d2) o2 /\ merged (children r3) (children d3) o3 /\
    section_set "global" o1 (children gd) a /\ section_set "detectors" o2 a b /\ section_set "materials" o3 b c /\ section_set "gear" c d doc.
Proof. exact merged_file_exact. Qed.
Print Assumptions C40_exact.

(** Nothing else of the other file reaches the merged one: files that differ outside of the children of the three parts give the same result. *)
Theorem C40_only_parts_refuted : forall m m2 r r2 d gr gr2, docs_of m r d -> docs_of m2 r2 d -> section "gear" r = Some gr -> section "gear" r2 = Some gr2 ->
  (forall v, merged_part v -> option_map children (section v (children gr)) = option_map children (section v (children gr2))) ->
  forall m' text, mergeFiles m = SOk m' (Some text) -> exists m2', mergeFiles m2 = SOk m2' (Some text).
Proof. exact only_parts. Qed.
Print Assumptions C40_only_parts_refuted.

(** So a magnetic field that only the other file has is lost. *)
Theorem C40_field_lost_refuted : exists a b m m' out, load_both a b = Some m /\ mergeFiles m = SOk m' (Some (print_doc out)) /\
  (exists g f, section "gear" a = Some g /\ section "BField" (children g) = Some f) /\
  (forall g f, section "gear" out = Some g -> section "BField" (children g) <> Some f).
Proof. exact field_lost. Qed.
Print Assumptions C40_field_lost_refuted.

(** If one of the three parts is missing in the other file, nothing is ever written and no result returned. *)
Theorem C40_part_missing_refuted : forall m r d gr gd s1 s2 v, docs_of m r d -> section "gear" r = Some gr -> section "gear" d = Some gd ->
  section "detectors" (children gr) = Some s1 -> section "detectors" (children gd) = Some s2 -> merged_part v ->
  section v (children gr) = None -> forall m' o, mergeFiles m <> SOk m' o.
Proof. exact part_missing. Qed.
Print Assumptions C40_part_missing_refuted.

(** A named element without children in both files is a null pointer access. *)
Theorem C40_childless_refuted : exists a b m, load_both a b = Some m /\ mergeFiles m = SUB.
Proof. exact childless_crash. Qed.
Print Assumptions C40_childless_refuted.

(** Repeated elements of the other file that are missing in the dominant one are not taken over: merging fails. *)
Theorem C40_new_repeated_refuted : forall x y n dch, sound n -> In x (children n) -> In y (children n) -> x <> y -> label x = label y ->
  (forall z, In z dch -> label z <> label x) -> forall out, mergeNode n dch <> Ok out.
Proof. exact new_repeated_throws. Qed.
Print Assumptions C40_new_repeated_refuted.

(** Of elements with the same name that do not stand together all but the first are lost. *)
Theorem C40_apart_refuted : exists a b m m' out kv, load_both a b = Some m /\ mergeFiles m = SOk m' (Some (print_doc out)) /\
  In kv (flat_map attributes a) /\ (forall v, ~ In (fst kv, v) (flat_map attributes b)) /\ ~ In kv (flat_map attributes out).
Proof. exact apart_lost. Qed.
Print Assumptions C40_apart_refuted.

(** Making file 1 dominant is the same as exchanging the files. *)
Theorem C40_dominance : forall a b, sound_doc a -> sound_doc b ->
  outcome (mergeFiles (mkMerger (Some a) (Some b) 1)) = outcome (mergeFiles (mkMerger (Some b) (Some a) 2)).
Proof. exact dominant_swap. Qed.
Print Assumptions C40_dominance.

(** A second merge after making file 1 dominant is one with file 2 dominant. *)
Theorem C40_second_merge_refuted : forall a b m', sound_doc a -> sound_doc b -> state_of (mergeFiles (mkMerger (Some a) (Some b) 1)) = Some m' ->
  outcome (mergeFiles m') = outcome (mergeFiles (mkMerger (Some a) (Some b) 2)).
Proof. exact dominant_twice. Qed.
Print Assumptions C40_second_merge_refuted.
