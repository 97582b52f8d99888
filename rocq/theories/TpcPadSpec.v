(** Specification vocabulary for finding the pads of a TPC (C86). *)
From Coq Require Import ZArith List String Bool Reals.
From Verif Require Import Base RBase TpcModuleModel TpcModel TpcSpec.
From Verif Require RectSpec.
Import ListNotations.
Open Scope R_scope.

(** A module with a rectangular layout of one or more rows of the same height, each as high as its
    pads, not too large for its indices; the module was made and mounted by any calls. *)
Definition even_rect (m : module) : Prop :=
  exists id q type f h x0 x1 y0 hr H, module_made id (LRect q) type f h m /\ side_settled (LRect q) type h /\
    RectSpec.built x0 x1 y0 hr q /\ let E := RectSpec.expected_rows x0 x1 hr in
    RectSpec.indexable E /\ RectSpec.full_height E /\ 0 < H /\ Forall (fun s => RectSpec.s_h s = H) E /\ E <> [].
