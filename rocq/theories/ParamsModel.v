(** Model of gear::GearParametersImpl (src/gearimpl/GearParametersImpl.cc,
    include/gear/gearimpl/GearParametersImpl.h): the named parameters every GEAR object carries.
    Simplification: doubles are real numbers. *)
From Coq Require Import ZArith List String Reals.
From Verif Require Import Base.
Import ListNotations.

(** GearParametersImpl.h 112-125: the six maps. The mutable key caches are only written by
    the key getters and never read elsewhere, so they are not part of the state. *)
Record params : Type := mkParams {
  p_int : smap Z;
  p_double : smap R;
  p_string : smap string;
  p_intVec : smap (list Z);
  p_doubleVec : smap (list R);
  p_stringVec : smap (list string)
}.

(** default constructed object: all maps empty *)
Definition params_empty : params := mkParams [] [] [] [] [] [].

(** the common pattern [find; if end throw UnknownParameterException(key)]:
    GearParametersImpl.cc 7-10, 15-18, 23-26, 31-34, 39-42, 47-50 *)
Definition lookup_or_throw {V} (key : string) (m : smap V) : result V :=
  match sm_find key m with
  | None => Throw (EUnknownParameter key)
  | Some v => Ok v
  end.

(** GearParametersImpl.cc 5-11 *)
Definition getIntVal (p : params) (key : string) : result Z := lookup_or_throw key (p_int p).
(** GearParametersImpl.cc 13-19 *)
Definition getDoubleVal (p : params) (key : string) : result R := lookup_or_throw key (p_double p).
(** GearParametersImpl.cc 21-27 *)
Definition getStringVal (p : params) (key : string) : result string := lookup_or_throw key (p_string p).
(** GearParametersImpl.cc 29-35 *)
Definition getIntVals (p : params) (key : string) : result (list Z) := lookup_or_throw key (p_intVec p).
(** GearParametersImpl.cc 37-43 *)
Definition getDoubleVals (p : params) (key : string) : result (list R) := lookup_or_throw key (p_doubleVec p).
(** GearParametersImpl.cc 45-51 *)
Definition getStringVals (p : params) (key : string) : result (list string) := lookup_or_throw key (p_stringVec p).

(** GearParametersImpl.cc 53-55 *)
Definition setIntVal (p : params) (key : string) (v : Z) : params :=
  mkParams (sm_set key v (p_int p)) (p_double p) (p_string p) (p_intVec p) (p_doubleVec p) (p_stringVec p).
(** GearParametersImpl.cc 57-59 *)
Definition setDoubleVal (p : params) (key : string) (v : R) : params :=
  mkParams (p_int p) (sm_set key v (p_double p)) (p_string p) (p_intVec p) (p_doubleVec p) (p_stringVec p).
(** GearParametersImpl.cc 62-64 *)
Definition setStringVal (p : params) (key : string) (v : string) : params :=
  mkParams (p_int p) (p_double p) (sm_set key v (p_string p)) (p_intVec p) (p_doubleVec p) (p_stringVec p).
(** GearParametersImpl.cc 67-69 *)
Definition setIntVals (p : params) (key : string) (v : list Z) : params :=
  mkParams (p_int p) (p_double p) (p_string p) (sm_set key v (p_intVec p)) (p_doubleVec p) (p_stringVec p).
(** GearParametersImpl.cc 72-74 *)
Definition setDoubleVals (p : params) (key : string) (v : list R) : params :=
  mkParams (p_int p) (p_double p) (p_string p) (p_intVec p) (sm_set key v (p_doubleVec p)) (p_stringVec p).
(** GearParametersImpl.cc 77-79 *)
Definition setStringVals (p : params) (key : string) (v : list string) : params :=
  mkParams (p_int p) (p_double p) (p_string p) (p_intVec p) (p_doubleVec p) (sm_set key v (p_stringVec p)).

(** GearParametersImpl.cc 81-90 *)
Definition getIntKeys (p : params) : list string := sm_keys (p_int p).
(** GearParametersImpl.cc 92-101 *)
Definition getDoubleKeys (p : params) : list string := sm_keys (p_double p).
(** GearParametersImpl.cc 105-114 *)
Definition getStringKeys (p : params) : list string := sm_keys (p_string p).
(** GearParametersImpl.cc 116-125 *)
Definition getIntVecKeys (p : params) : list string := sm_keys (p_intVec p).
(** GearParametersImpl.cc 127-136 *)
Definition getDoubleVecKeys (p : params) : list string := sm_keys (p_doubleVec p).
(** GearParametersImpl.cc 139-148 *)
Definition getStringVecKeys (p : params) : list string := sm_keys (p_stringVec p).
