(** Property theorems for C85: the programs mergeXML, testXMLCopy and printParameters *)
From Coq Require Import ZArith Reals List String Ascii Bool Lia.
From Verif Require Import Base RBase XmlModel XmlSpec HxModel MergeModel MergeSpec MergeProofs MergeProofs2 ParamsModel ParamsSpec GearXmlModel GearXmlSpec GearXmlProofs5 GearXmlProofs6
  CopySpec CopyProofs3 UtilModel UtilSpec UtilProofs5 ToolModel ToolSpec ToolProofs.
From Verif Require PropMerge PropGearXml PropCopy.
Import ListNotations.
Open Scope list_scope.

(** A disk with the two files of C40, a broken file and a directory nobody may write to. *)
Definition ex_disk : disk :=
  mkDisk (fun n => if String.eqb n "a.xml" then Some (print_doc PropMerge.file_a)
                   else if String.eqb n "b.xml" then Some (print_doc PropMerge.file_b)
                   else if String.eqb n "broken.xml" then Some "<gear"%string else None)
         (fun n => negb (String.eqb n "/out.xml")).
Example ex_holds : holds ex_disk "a.xml" PropMerge.file_a /\ holds ex_disk "b.xml" PropMerge.file_b /\
  unreadable ex_disk "broken.xml" /\ unreadable ex_disk "missing.xml".
Proof.
  split; [|split; [|split]].
  - eexists. split; [reflexivity|]. vm_compute. reflexivity.
  - eexists. split; [reflexivity|]. vm_compute. reflexivity.
  - right. eexists _, _. split; [reflexivity|]. vm_compute. reflexivity.
  - left. reflexivity.
Qed.
Example ex_merge : exists d', merge_main ex_disk ["a.xml"; "b.xml"; "c.xml"]%string = Ran (Status 0) d' /\ contents d' "c.xml" <> None.
Proof. eexists. split; [vm_compute; reflexivity|]. cbn. discriminate. Qed.
Example ex_sound : sound_doc PropMerge.file_a /\ sound_doc PropMerge.file_b.
Proof. split; apply sound_docb; reflexivity. Qed.

(** ** mergeXML *)
(** However the program ends, no file but the third one named is changed, and that one only if it can be written and the exit status is 0. *)
Theorem C85_merge_only_target : forall d args e d', merge_main d args = Ran e d' ->
  same_files d d' \/ exists a b t rest bytes, args = a :: b :: t :: rest /\ e = Status 0 /\ may_write d t = true /\ only_written d t bytes d'.
Proof. exact merge_only_target. Qed.
Print Assumptions C85_merge_only_target.

(** The exit status is 1 if fewer than three files are named, and 2 exactly if one of the two inputs cannot be read. *)
Theorem C85_merge_arguments : forall d args, (List.length args < 3)%nat -> merge_main d args = Ran (Status 1) d.
Proof. intros d [|a [|b [|t rest]]] L; try reflexivity. cbn in L. lia. Qed.
Print Assumptions C85_merge_arguments.
Theorem C85_merge_unreadable : forall d a b t rest,
  (unreadable d a \/ (exists r, holds d a r) /\ unreadable d b -> merge_main d (a :: b :: t :: rest) = Ran (Status 2) d) /\
  forall d', merge_main d (a :: b :: t :: rest) = Ran (Status 2) d' -> unreadable d a \/ unreadable d b.
Proof.
  intros d a b t rest. split; [apply merge_unreadable|]. intros d' H. destruct (merge_ends _ _ _ _ _ _ _ H) as [(_ & _ & U)|(r & s & _ & _ & [[_ (m & x & _ & E)]|[[_ [E _]]|(m & x & _ & [(_ & E & _)|(_ & E & _)])]])]; auto; try discriminate.
  destruct (is_gear_exception x); discriminate.
Qed.
Print Assumptions C85_merge_unreadable.

(** For two readable files it is 1 exactly if one of them is not a geometry with detectors, or if they can be merged and the third file cannot be written. *)
Theorem C85_merge_refused : forall d a b t rest r s, holds d a r -> holds d b s -> sound_doc r -> sound_doc s ->
  (merge_main d (a :: b :: t :: rest) = Ran (Status 1) d <->
   ~ (gear_document r /\ gear_document s) \/
   may_write d t = false /\ exists m text, mergeFiles (mkMerger (Some r) (Some s) 2) = SOk m (Some text)).
Proof. exact merge_status. Qed.
Print Assumptions C85_merge_refused.

(** The second file named overrules the first: what is written is the second file with attributes and elements added behind those that were there. *)
Theorem C85_merge_primary : forall d a b t rest d' r s, holds d a r -> holds d b s -> sound_doc r -> sound_doc s ->
  merge_main d (a :: b :: t :: rest) = Ran (Status 0) d' ->
  same_files d d' \/ exists doc, only_written d t (print_doc doc) d' /\ Forall2 keeps s doc.
Proof.
  intros d a b t rest d' r s A B Sr Ss H. rewrite (merge_runs _ _ _ _ _ _ _ A B) in H.
  destruct (mergeFiles _) as [m' [text|]|m' x|] eqn:M; try discriminate; [|destruct (is_gear_exception x); [injection H as <-; left; apply same_refl|discriminate]].
  assert (DO : docs_of (mkMerger (Some r) (Some s) 2) r s) by (repeat split; assumption).
  destruct (merged_file_keeps _ _ _ _ _ DO M) as [doc [-> K]]. right. exists doc. split; [|exact K].
  destruct (may_write d t) eqn:W; [|discriminate]. destruct (saved d t (print_doc doc) W) as [d1 [E O]]. rewrite E in H. injection H as <-. exact O.
Qed.
Print Assumptions C85_merge_primary.

(** Two geometries with the three parts whose repeated elements agree and whose named common elements are not empty (C40) are merged: status 0, and the target is the merged tree. *)
Theorem C85_merge_written : forall d a b t rest r s gr gd r1 r2 r3 d1 d2 d3, holds d a r -> holds d b s -> sound_doc r -> sound_doc s -> may_write d t = true ->
  section "gear" r = Some gr -> section "global" (children gr) = Some r1 -> section "detectors" (children gr) = Some r2 -> section "materials" (children gr) = Some r3 ->
  section "gear" s = Some gd -> section "global" (children gd) = Some d1 -> section "detectors" (children gd) = Some d2 -> section "materials" (children gd) = Some d3 ->
  (forall n, In n [gd; d1; d2; d3] -> HxModel.is_elem n = true) ->
  mergeable (children r1) (children d1) -> mergeable (children r2) (children d2) -> mergeable (children r3) (children d3) ->
  exists d' doc o1 o2 o3 x y z, merge_main d (a :: b :: t :: rest) = Ran (Status 0) d' /\ only_written d t (print_doc doc) d' /\
    merged (children r1) (children d1) o1 /\ merged (children r2) (children d2) o2 /\ merged (children r3) (children d3) o3 /\
    section_set "global" o1 (children gd) x /\ section_set "detectors" o2 x y /\ section_set "materials" o3 y z /\ section_set "gear" z s doc.
Proof.
  intros d a b t rest r s gr gd r1 r2 r3 d1 d2 d3 A B Sr Ss W H1 H2 H3 H4 H5 H6 H7 H8 HE M1 M2 M3.
  assert (DO : docs_of (mkMerger (Some r) (Some s) 2) r s) by (repeat split; assumption).
  destruct (merged_file_exact _ _ _ _ _ _ _ _ _ _ _ DO H1 H2 H3 H4 H5 H6 H7 H8 HE M1 M2 M3) as (m' & doc & o1 & o2 & o3 & x & y & z & M & R).
  destruct (saved d t (print_doc doc) W) as [d' [S O]]. exists d', doc, o1, o2, o3, x, y, z.
  split; [rewrite (merge_runs _ _ _ _ _ _ _ A B), M, W, S; reflexivity|]. split; [exact O | exact R].
Qed.
Print Assumptions C85_merge_written.

(** Exit status 0 does not mean that anything was written: there are two geometries with all parts for which the program reports an exception, writes nothing and ends with status 0. *)
Theorem C85_merge_status_refuted : exists d a b r s, holds d a r /\ holds d b s /\ gear_document r /\ gear_document s /\ (forall n, may_write d n = true) /\
  forall t rest, merge_main d (a :: b :: t :: rest) = Ran (Status 0) d.
Proof.
  set (r := doc [named_det "X" [layer "1"; layer "2"]]). set (s := doc [named_det "X" [layer "1"]]).
  exists (mkDisk (fun n => if String.eqb n "a" then Some (print_doc r) else Some (print_doc s)) (fun _ => true)), "a"%string, "b"%string, r, s.
  split; [eexists; split; [reflexivity|vm_compute; reflexivity]|]. split; [eexists; split; [reflexivity|vm_compute; reflexivity]|].
  split; [eexists _, _; split; reflexivity|]. split; [eexists _, _; split; reflexivity|]. split; [reflexivity|].
  intros t rest. erewrite merge_runs; [|eexists; split; [reflexivity|vm_compute; reflexivity]|eexists; split; [reflexivity|vm_compute; reflexivity]].
  reflexivity.
Qed.
Print Assumptions C85_merge_status_refuted.

(** ** testXMLCopy *)
(** A disk with the file of the detector of C38. *)
Lemma ex_geometry : exists d g, geometry_in d "a.xml" g /\ texts_ok g /\ g_name g <> ""%string /\ (forall s, fits g s) /\ all_survive g /\ all_come_back g /\ all_settle g /\
  (exists h, createXMLFile (GearXmlModel.built h) = match contents d "a.xml" with Some bytes => Ok bytes | None => UB end /\ same_content (GearXmlModel.built h) g) /\
  (forall n, may_write d n = true).
Proof.
  destruct PropGearXml.everything_survives as [T [N [F S]]]. pose proof PropCopy.coil_only as CO.
  revert T N F S CO. generalize PropGearXml.ex_calls. intros h T N F S CO.
  destruct (all_same h T N F S) as (file & g & W & L & E).
  assert (K : forall {O} (w : O -> result xnode) r o, stays w r o -> comes_back w r o) by (intros O w r [z|] H; cbn; [exists z; apply H; reflexivity | exact Logic.I]).
  assert (A : all_settle (GearXmlModel.built h)).
  { destruct S as (S1 & S2 & S3 & S4 & S5 & S6 & S7 & S8 & S9). split; [apply PropCopy.stays_settles; exact S1|]. split; [apply PropCopy.stays_settles; exact S2|].
    split; [intros s; apply PropCopy.stays_settles; apply S3|]. split; [intros s; apply PropCopy.stays_settles; apply S4|]. split; [apply PropCopy.stays_settles; exact S5|].
    split; [apply PropCopy.stays_settles; exact S6|]. split; [apply PropCopy.stays_settles; exact S7|]. split; [exact CO | intros k; apply PropCopy.stays_settles; intros m M; apply (S9 k m M)]. }
  destruct (settled h file g T A W L) as (T1 & N1 & F1 & S1).
  exists (mkDisk (fun _ => Some file) (fun _ => true)), g. split; [exact L|]. split; [exact T1|]. split; [exact N1|]. split; [exact F1|]. split; [exact S1|].
  split; [destruct S1 as (_ & B2 & B3 & B4 & B5 & B6 & B7 & _); split; [apply K; exact B2|]; split; [intros s; apply K; apply B3|]; split; [intros s; apply K; apply B4|];
          split; [apply K; exact B5|]; split; [apply K; exact B6 | apply K; exact B7]|].
  split; [|split; [exists h; split; [exact W | exact E] | reflexivity]].
  destruct S1 as (B1 & B2 & B3 & B4 & B5 & B6 & B7 & B8 & B9). split; [apply PropCopy.stays_settles; exact B1|]. split; [apply PropCopy.stays_settles; exact B2|].
  split; [intros s; apply PropCopy.stays_settles; apply B3|]. split; [intros s; apply PropCopy.stays_settles; apply B4|]. split; [apply PropCopy.stays_settles; exact B5|].
  split; [apply PropCopy.stays_settles; exact B6|]. split; [apply PropCopy.stays_settles; exact B7|].
  split; [intros k p P; apply (CO k p); rewrite <- P; symmetry; apply E | intros k; apply PropCopy.stays_settles; intros m M; apply (B9 k m M)].
Qed.
(** However the program ends, no file but the second one named is changed, and that one only if it can be written and the status is 0. *)
Theorem C85_copy_only_target : forall d args e d', copy_main d args = Ran e d' ->
  same_files d d' \/ exists a b bytes g, args = [a; b] /\ e = Status 0 /\ may_write d b = true /\ geometry_in d a g /\ createXMLFile g = Ok bytes /\ only_written d b bytes d'.
Proof. exact copy_only_target. Qed.
Print Assumptions C85_copy_only_target.

(** With other than two names the status is 1; an input that cannot be read terminates the program. *)
Theorem C85_copy_arguments : forall d args, List.length args <> 2%nat -> copy_main d args = Ran (Status 1) d.
Proof. intros d [|a [|b [|c rest]]] L; try reflexivity. now contradiction L. Qed.
Print Assumptions C85_copy_arguments.
Theorem C85_copy_unreadable : forall d a b, unreadable d a -> exists e, copy_main d [a; b] = Ran (Terminated e) d.
Proof. exact copy_unreadable. Qed.
Print Assumptions C85_copy_unreadable.

(** A geometry that can be saved and loaded (C38) is copied: status 0, and the copy holds everything that comes back of each part of it; *)
Theorem C85_copy_loads : forall d a b g, geometry_in d a g -> texts_ok g -> all_come_back g -> may_write d b = true ->
  exists bytes d' g', copy_main d [a; b] = Ran (Status 0) d' /\ only_written d b bytes d' /\ geometry_in d' b g' /\
    loaded_apart_from_calorimeters g g' /\ calorimeters_loaded g g'.
Proof. exact copy_loads. Qed.
Print Assumptions C85_copy_loads.
(** the same geometry, if every part survives on its own. *)
Theorem C85_copy_same : forall d a b g, geometry_in d a g -> texts_ok g -> g_name g <> ""%string -> (forall s, fits g s) -> all_survive g -> may_write d b = true ->
  exists bytes d' g', copy_main d [a; b] = Ran (Status 0) d' /\ only_written d b bytes d' /\ geometry_in d' b g' /\ same_content g g'.
Proof. exact copy_same. Qed.
Print Assumptions C85_copy_same.
(** If the file was written by the library from such a geometry, the copy is the same text. *)
Theorem C85_copy_identical : forall d a b h, let g := GearXmlModel.built h in texts_ok g -> g_name g <> ""%string -> (forall s, fits g s) -> all_survive g ->
  createXMLFile g = match contents d a with Some bytes => Ok bytes | None => UB end -> may_write d b = true ->
  exists d' bytes, copy_main d [a; b] = Ran (Status 0) d' /\ contents d a = Some bytes /\ only_written d b bytes d'.
Proof. exact copy_identical. Qed.
Print Assumptions C85_copy_identical.
(** If every part settles (C83), the copy of a copy and its copy are the same text. *)
Theorem C85_copies_settle : forall d a b c f g d1 d2 d3, geometry_in d a g -> texts_ok g -> all_settle g -> all_come_back g ->
  may_write d b = true -> may_write d c = true -> may_write d f = true -> c <> f ->
  copy_main d [a; b] = Ran (Status 0) d1 -> copy_main d1 [b; c] = Ran (Status 0) d2 -> copy_main d2 [c; f] = Ran (Status 0) d3 ->
  contents d3 f <> None /\ contents d3 f = contents d3 c.
Proof. exact copy_three. Qed.
Print Assumptions C85_copies_settle.

(** The program does not notice that the copy cannot be written: it ends with status 0. *)
Theorem C85_copy_unwritable_refuted : forall d a b g, geometry_in d a g -> texts_ok g -> all_come_back g -> may_write d b = false -> copy_main d [a; b] = Ran (Status 0) d.
Proof.
  intros d a b g G T B M. destruct (built_geometry _ _ _ G) as [h ->]. destruct (proj2 (round_trip h T) B) as (file & g' & W & _).
  rewrite (copy_runs _ _ _ _ G), W, (not_saved _ _ _ M). reflexivity.
Qed.
Print Assumptions C85_copy_unwritable_refuted.

(** ** printParameters *)
Definition small_file : string := "<gear><global detectorName=""D""/><detectors><detector name=""a"" geartype=""GearParameters""/></detectors></gear>".
Example small_printable : exists g, geometry_in (mkDisk (fun _ => Some small_file) (fun _ => true)) "a.xml" g /\ printable g /\ g_name g = "D"%string.
Proof.
  exists (GearXmlModel.built [SetDetectorName "D"; SetGearParameters "a" params_empty]). split; [vm_compute; reflexivity|]. split; [|reflexivity].
  unfold printable, others_printable. cbn. repeat split; discriminate.
Qed.
(** A file whose geometry can be printed (C75) is printed completely: status 0. *)
Theorem C85_print_all : forall ord d a rest g, geometry_in d a g -> printable g ->
  exists before after out, print_main ord d (a :: rest) = Printed 0 (before ++ out ++ after) /\ everything_in ord g default_format out.
Proof. exact print_all. Qed.
Print Assumptions C85_print_all.
(** The status is 0 or 1, and 0 only if the file could be loaded and printed to the end; it is 1 if there is no file or it cannot be read. *)
Theorem C85_print_status : forall ord d args,
  (forall n out, print_main ord d args = Printed n out -> n = 0%Z \/ n = 1%Z) /\
  (forall out, print_main ord d args = Printed 0 out ->
     exists a rest g s s', args = a :: rest /\ geometry_in d a g /\ print_mgr ord g s = SOk s' tt) /\
  (args = [] \/ (exists a rest, args = a :: rest /\ unreadable d a) -> exists out, print_main ord d args = Printed 1 out).
Proof.
  intros ord d args. split; [apply print_status|]. split.
  - intros out H. destruct (print_zero _ _ _ _ H) as (a & rest & g & s' & E & G & s & P). exists a, rest, g, s, s'. auto.
  - intros [->|(a & rest & -> & U)]; [eexists; reflexivity | now apply print_unreadable].
Qed.
Print Assumptions C85_print_status.
(** A geometry whose FTD has eight or more layers cannot be printed: status 1. *)
Theorem C85_print_ftd_refuted : forall ord d a rest g o h, geometry_in d a g -> others_printable g -> g_ftd g = Some o -> ftd_small o h -> (8 <= List.length h)%nat ->
  exists out, print_main ord d (a :: rest) = Printed 1 out.
Proof. exact print_stops. Qed.
Print Assumptions C85_print_ftd_refuted.
