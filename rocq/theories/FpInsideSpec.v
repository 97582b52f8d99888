(** Specification vocabulary: rows not too thin in comparison with their radius. *)
From Coq Require Import Reals.
From Verif Require Import DiskSpec FpFpaSpec.
Open Scope R_scope.
Definition not_too_thin (a : fpa_args) : Prop := pa_rMax a <= 1000000000 * row_height a.
