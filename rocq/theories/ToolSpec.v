(** What users see of the command line programs: files and exit statuses. *)
From Coq Require Import ZArith List String Ascii Bool.
From Verif Require Import Base XmlModel HxModel MergeModel MergeSpec GearXmlModel ToolModel.
Import ListNotations.

(** the file [name] is there and is the well-formed document [doc] *)
Definition holds (d : disk) (name : string) (doc : list xnode) : Prop :=
  exists bytes, contents d name = Some bytes /\ LoadFile bytes = POk (doc, true).
(** the file [name] cannot be opened, or is empty or not well-formed *)
Definition unreadable (d : disk) (name : string) : Prop :=
  contents d name = None \/ exists bytes doc, contents d name = Some bytes /\ LoadFile bytes = POk (doc, false).
(** the geometry a new reader makes of the file *)
Definition geometry_in (d : disk) (name : string) (g : content) : Prop :=
  createGearMgr None (contents d name) = SOk (Some g) g.

Definition same_files (d d' : disk) : Prop := forall n, contents d' n = contents d n /\ may_write d' n = may_write d n.
(** [d'] is [d] after [bytes] were written to [name] *)
Definition only_written (d : disk) (name bytes : string) (d' : disk) : Prop :=
  contents d' name = Some bytes /\ (forall n, n <> name -> contents d' n = contents d n) /\ forall n, may_write d' n = may_write d n.

(** both documents are geometries with a part for detectors *)
Definition gear_document (l : list xnode) : Prop :=
  exists g s, section "gear" l = Some g /\ section "detectors" (children g) = Some s.
