(** What it takes for a calorimeter to survive being saved and loaded. *)
From Coq Require Import ZArith List String Bool Reals.
From Verif Require Import Base RBase NumSpec CaloModel CaloSpec.
Import ListNotations.
Open Scope R_scope.

(** the layers follow each other without gaps, the first one at [pos] *)
Fixpoint gap_free (pos : R) (v : layout) : Prop :=
  match v with
  | [] => True
  | l :: r => L_Distance l = pos /\ gap_free (pos + L_Thickness l) r
  end.

(** relative difference below 0.0001 *)
Definition close (a b : R) : Prop := a = b \/ Rabs (a - b) < Rabs (a + b) / 2 / 10000.
Definition close_layers (a b : layer) : Prop :=
  close (L_Thickness a) (L_Thickness b) /\ close (L_AbsorberThickness a) (L_AbsorberThickness b) /\
  close (L_CellSize0 a) (L_CellSize0 b) /\ close (L_CellSize1 a) (L_CellSize1 b).
Definition equal_layers (a b : layer) : Prop :=
  L_Thickness a = L_Thickness b /\ L_AbsorberThickness a = L_AbsorberThickness b /\
  L_CellSize0 a = L_CellSize0 b /\ L_CellSize1 a = L_CellSize1 b.

(** consecutive layers are equal if they are close *)
Definition distinct_steps (v : layout) : Prop :=
  forall i a b, nth_error v i = Some a -> nth_error v (S i) = Some b -> close_layers a b -> equal_layers a b.

Definition kept_layer (l : layer) : Prop :=
  kept (L_Thickness l) /\ kept (L_AbsorberThickness l) /\ kept (L_CellSize0 l) /\ kept (L_CellSize1 l).

(** the extent a calorimeter reports *)
Definition extent_of (c : calo) : option (list R) :=
  match getExtent c with SOk _ e => Some e | _ => None end.

(** [n] layers whose thickness grows by 50 from layer to layer, beginning with [t] *)
Fixpoint drift (n : nat) (t : Z) : list calo_call :=
  match n with O => [] | S n' => CAdd (IZR t) 1 1 1 :: drift n' (t + 50) end.
