(** gear::LayerLayoutImpl and gear::CalorimeterParametersImpl again, in double arithmetic: every sum is rounded to the
    nearest double (ties to even).  Simplification: overflow to infinity is left out. *)
From Coq Require Import ZArith List Reals.
From Verif Require Import Base RBase NumModel FpModel CaloModel.
Import ListNotations.
Open Scope R_scope.

(** LayerLayoutImpl.cc 8-28 *)
Definition daddLayer (v : layout) (thickness cellSize0 cellSize1 absorberThickness : R) : layout :=
  let distance := match back_ v with
                  | None => 0                                              (* 12-14 *)
                  | Some b => fadd (L_Distance b) (L_Thickness b)          (* 16-19 *)
                  end in
  v ++ [mkLayer distance thickness absorberThickness cellSize0 cellSize1].

(** CalorimeterParametersImpl.cc 34-55 *)
Definition dgetExtent (c : calo) : sres calo (list R) :=
  let nLayer := getNLayers (c_layout c) in
  if (0 <? nLayer)%Z then
    match rbind (getDistance (c_layout c) (nLayer - 1)) (fun d =>
          rbind (getThickness (c_layout c) (nLayer - 1)) (fun t => Ok (fadd d t))) with
    | Ok e =>
        let ext := match c_type c with
                   | BARREL => set_nth 1 e (c_extent c)       (* 44-46 *)
                   | ENDCAP => set_nth 3 e (c_extent c)       (* 48-51 *)
                   end in
        SOk (mkCalo (c_type c) (c_sym c) (c_phi c) (c_layout c) ext) ext
    | Throw e => SThrow c e
    | UB => SUB
    end
  else SOk c (c_extent c).
