(** What a user asks of a calorimeter: a history of calls, and where the layers then are. *)
From Coq Require Import ZArith List Reals.
From Verif Require Import Base RBase CaloModel.
Import ListNotations.
Open Scope R_scope.

(** A call on the calorimeter: append a layer, append one at a given distance, or ask the extent. *)
Inductive calo_call :=
| CAdd (thickness cell0 cell1 absorber : R)
| CPos (distance thickness cell0 cell1 absorber : R)
| CExt.

(** Perform the calls through the model's functions. *)
Definition calo_do (c : calo) (k : calo_call) : calo :=
  match k with
  | CAdd t c0 c1 a => set_layout c (addLayer (getLayerLayout c) t c0 c1 a)
  | CPos d t c0 c1 a => set_layout c (positionLayer (getLayerLayout c) d t c0 c1 a)
  | CExt => match getExtent c with SOk c' _ => c' | SThrow c' _ => c' | SUB => c end
  end.
Definition calo_run (c : calo) (h : list calo_call) : calo := fold_left calo_do h c.

(** The calls that add a layer. *)
Definition is_layer (k : calo_call) : bool := match k with CExt => false | _ => true end.
Definition layers_of (h : list calo_call) : list calo_call := filter is_layer h.
Definition thick (k : calo_call) : R :=
  match k with CAdd t _ _ _ => t | CPos _ t _ _ _ => t | CExt => 0 end.

(** Where the layers of a history start, given where the next layer starts:
    an added layer starts at the end of its predecessor, a positioned one where it is put. *)
Fixpoint starts (pos : R) (ks : list calo_call) : list R :=
  match ks with
  | [] => []
  | CPos d t _ _ _ :: r => d :: starts (d + t) r
  | CAdd t _ _ _ :: r => pos :: starts (pos + t) r
  | CExt :: r => starts pos r
  end.
(** Where the last layer ends. *)
Fixpoint ends (pos : R) (ks : list calo_call) : R :=
  match ks with
  | [] => pos
  | CPos d t _ _ _ :: r => ends (d + t) r
  | CAdd t _ _ _ :: r => ends (pos + t) r
  | CExt :: r => ends pos r
  end.

Fixpoint total (ks : list calo_call) : R :=
  match ks with [] => 0 | k :: r => thick k + total r end.
Definition added (k : calo_call) : Prop := match k with CPos _ _ _ _ _ => False | _ => True end.
