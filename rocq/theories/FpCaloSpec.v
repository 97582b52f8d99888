(** A calorimeter in double arithmetic.  The calls, and what they say about the layers, are those of CaloSpec. *)
From Coq Require Import ZArith List Reals.
From Verif Require Import Base RBase NumSpec CaloModel CaloSpec FpCaloModel.
Import ListNotations.
Open Scope R_scope.

(** Perform the calls in double arithmetic. *)
Definition dcalo_do (c : calo) (k : calo_call) : calo :=
  match k with
  | CAdd t c0 c1 a => set_layout c (daddLayer (getLayerLayout c) t c0 c1 a)
  | CPos d t c0 c1 a => set_layout c (positionLayer (getLayerLayout c) d t c0 c1 a)
  | CExt => match dgetExtent c with SOk c' _ => c' | SThrow c' _ => c' | SUB => c end
  end.
Definition dcalo_run (c : calo) (h : list calo_call) : calo := fold_left dcalo_do h c.

(** A calorimeter nothing was done with yet. *)
Definition fresh (c : calo) : Prop :=
  (exists rMin zMax s p, c = new_barrel rMin zMax s p) \/ (exists rMin rMax zMin s p, c = new_endcap rMin rMax zMin s p).

(** Distances and thicknesses given are doubles. *)
Definition double_args (k : calo_call) : Prop :=
  match k with CAdd t _ _ _ => is_double t | CPos d t _ _ _ => is_double d /\ is_double t | CExt => True end.

(** Half the distance of 1 and the next double. *)
Definition u : R := / 9007199254740992.

(** What layer [i] is said to be. *)
Definition layer_is (v : layout) (i : nat) (d t : R) : Prop :=
  getDistance v (Z.of_nat i) = Ok d /\ getThickness v (Z.of_nat i) = Ok t.

(** Layer [i] was appended with addLayer. *)
Definition is_added (h : list calo_call) (i : nat) : Prop :=
  exists t c0 c1 a, nth_error (layers_of h) i = Some (CAdd t c0 c1 a).
