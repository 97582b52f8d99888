(** Model of gear::LayerLayoutImpl (src/gearimpl/LayerLayoutImpl.cc,
    include/gear/gearimpl/LayerLayoutImpl.h) and gear::CalorimeterParametersImpl
    (src/gearimpl/CalorimeterParametersImpl.cc, include/gear/gearimpl/CalorimeterParametersImpl.h).
    Simplifications: doubles are real numbers; the named parameters a calorimeter also carries are
    in ParamsModel. *)
From Coq Require Import ZArith List String Reals.
From Verif Require Import Base RBase.
Import ListNotations.
Open Scope R_scope.

(** LayerLayoutImpl::Layer, LayerLayoutImpl.h 29-35 *)
Record layer := mkLayer {
  L_Distance : R; L_Thickness : R; L_AbsorberThickness : R; L_CellSize0 : R; L_CellSize1 : R }.

(** LayerLayoutImpl: its only member _vec, LayerLayoutImpl.h 87; empty at first *)
Definition layout := list layer.

(** [_vec.back()], used only where _vec is not empty *)
Definition back_ (v : layout) : option layer := nth_error v (List.length v - 1).

(** LayerLayoutImpl.cc 8-28 *)
Definition addLayer (v : layout) (thickness cellSize0 cellSize1 absorberThickness : R) : layout :=
  let distance := match back_ v with
                  | None => 0                                              (* 12-14 *)
                  | Some b => L_Distance b + L_Thickness b                 (* 16-19 *)
                  end in
  v ++ [mkLayer distance thickness absorberThickness cellSize0 cellSize1].

(** LayerLayoutImpl.cc 31-42 *)
Definition positionLayer (v : layout) (distance thickness cellSize0 cellSize1 absorberThickness : R) : layout :=
  v ++ [mkLayer distance thickness absorberThickness cellSize0 cellSize1].

(** LayerLayoutImpl.h 44 (the conversion of size() to int is exact below 2^31 layers) *)
Definition getNLayers (v : layout) : Z := Z.of_nat (List.length v).
(** LayerLayoutImpl.h 49, 54, 59-61, 66-68, 72-74: [_vec.at( layerIndex )]; a negative int becomes a
    huge size_t and is out of range as well *)
Definition getDistance (v : layout) (i : Z) : result R := rmap L_Distance (at_ v i).
Definition getThickness (v : layout) (i : Z) : result R := rmap L_Thickness (at_ v i).
Definition getAbsorberThickness (v : layout) (i : Z) : result R := rmap L_AbsorberThickness (at_ v i).
Definition getCellSize0 (v : layout) (i : Z) : result R := rmap L_CellSize0 (at_ v i).
Definition getCellSize1 (v : layout) (i : Z) : result R := rmap L_CellSize1 (at_ v i).

(** CalorimeterParameters::BARREL = 0, ENDCAP = 1: CalorimeterParameters.h *)
Inductive calotype := BARREL | ENDCAP.

(** CalorimeterParametersImpl.h 69-73; the mutable _extent is part of the state *)
Record calo := mkCalo { c_type : calotype; c_sym : Z; c_phi : R; c_layout : layout; c_extent : list R }.

(** CalorimeterParametersImpl.cc 6-17 *)
Definition new_barrel (rMin zMax : R) (symOrder : Z) (phi0 : R) : calo :=
  mkCalo BARREL symOrder phi0 [] [rMin; rMin; 0; zMax].
(** CalorimeterParametersImpl.cc 21-32 *)
Definition new_endcap (rMin rMax zMin : R) (symOrder : Z) (phi0 : R) : calo :=
  mkCalo ENDCAP symOrder phi0 [] [rMin; rMax; zMin; zMin].

(** [_extent[i] = x]; _extent always has four entries *)
Definition set_nth {A} (i : nat) (x : A) (l : list A) : list A := firstn i l ++ x :: skipn (S i) l.

(** CalorimeterParametersImpl.cc 34-55: fills in the outer end from the last layer, then returns
    _extent *)
Definition getExtent (c : calo) : sres calo (list R) :=
  let nLayer := getNLayers (c_layout c) in
  if (0 <? nLayer)%Z then
    match rbind (getDistance (c_layout c) (nLayer - 1)) (fun d =>
          rbind (getThickness (c_layout c) (nLayer - 1)) (fun t => Ok (d + t))) with
    | Ok e =>
        let ext := match c_type c with
                   | BARREL => set_nth 1 e (c_extent c)       (* 44-46 *)
                   | ENDCAP => set_nth 3 e (c_extent c)       (* 48-51 *)
                   end in
        SOk (mkCalo (c_type c) (c_sym c) (c_phi c) (c_layout c) ext) ext
    | Throw e => SThrow c e
    | UB => SUB
    end
  else SOk c (c_extent c).

(** CalorimeterParametersImpl.h 44, 56, 60 *)
Definition getLayoutType (c : calo) : calotype := c_type c.
Definition getSymmetryOrder (c : calo) : Z := c_sym c.
Definition getPhi0 (c : calo) : R := c_phi c.

(** CalorimeterParametersImpl.h 39, 63: layers are added through the reference layerLayout() *)
Definition getLayerLayout (c : calo) : layout := c_layout c.
Definition set_layout (c : calo) (v : layout) : calo :=
  mkCalo (c_type c) (c_sym c) (c_phi c) v (c_extent c).
