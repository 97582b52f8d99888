(** Model of FTDLayerLayoutImpl (src/gearimpl/FTDLayerLayoutImpl.cc, include/gear/gearimpl/FTDLayerLayoutImpl.h)
    and of the look-up functions of FTDParametersImpl (src/gearimpl/FTDParametersImpl.cc).  Doubles are
    reals; sizes of vectors are unbounded. *)
From Coq Require Import ZArith List String Bool Reals.
From Flocq Require Import Core.Raux Core.Generic_fmt.
From Verif Require Import Base RBase Trig VecModel.
Import ListNotations.
Open Scope R_scope.

(** struct Layer, FTDLayerLayoutImpl.h 39-63 *)
Record flayer := mkFL {
  l_nPetals : Z; l_nSensors : Z; l_double : bool; l_type : Z; l_open : R; l_phi0 : R; l_alpha : R;
  l_z : R; l_zoff : R; l_zsign : R; l_rInner : R; l_thick : R; l_lenMin : R; l_lenMax : R; l_width : R;
  l_radLen : R }.

(** data members, FTDLayerLayoutImpl.h 281-284; the frames _eL, _eS are never read *)
Record ftd := mkFtd { f_lVec : list flayer; f_sVec : list flayer }.
Definition new_ftd : ftd := mkFtd [] [].

(** the arguments of addLayer *)
Record ftd_args := mkFA {
  a_nPetals : Z; a_nSensors : Z; a_double : bool; a_type : Z; a_open : R; a_phi0 : R; a_alpha : R;
  a_z : R; a_zoff : R; a_zsign : R;
  a_supR : R; a_supT : R; a_supMin : R; a_supMax : R; a_supW : R; a_supRad : R;
  a_senR : R; a_senT : R; a_senMin : R; a_senMax : R; a_senW : R; a_senRad : R }.

(** getframe, FTDLayerLayoutImpl.cc 246-268: [fr[i] = e] on a vector that is only reserved.  The
    subscripts are not below the size, so the standard calls this undefined; the memory is there, the
    size stays 0 and the result is never read.  The list of subscripts and the size of the vector: *)
Definition getframe_subscripts : list (Z * Z) := [(0, 0); (1, 0); (2, 0)]%Z.

(** addLayer, FTDLayerLayoutImpl.cc 9-68.  The frames (64-67) are left out, see getframe above. *)
Definition ftd_addLayer (f : ftd) (a : ftd_args) : ftd :=
  mkFtd (f_lVec f ++ [mkFL (a_nPetals a) (a_nSensors a) (a_double a) (a_type a) (a_open a) (a_phi0 a) (a_alpha a)
                           (a_z a) (a_zoff a) (a_zsign a) (a_supR a) (a_supT a) (a_supMin a) (a_supMax a) (a_supW a)
                           (a_supRad a)])
        (f_sVec f ++ [mkFL (a_nPetals a) (a_nSensors a) (a_double a) (a_type a) (a_open a) (a_phi0 a) (a_alpha a)
                           (a_z a) (a_zoff a) (a_zsign a) (a_senR a) (a_senT a) (a_senMin a) (a_senMax a) (a_senW a)
                           (a_senRad a)]).

(** getNLayers, FTDLayerLayoutImpl.h 72 *)
Definition ftd_getNLayers (f : ftd) : Z := Z.of_nat (List.length (f_lVec f)).
(** getEquivLayer, FTDLayerLayoutImpl.cc 73-97; the message on std::cout is not modelled *)
Definition getEquivLayer (f : ftd) (i : Z) : Z := if (6 <? i)%Z then (i - ftd_getNLayers f)%Z else i.

(** the getters of FTDLayerLayoutImpl.h 77-232 that read one field of a support or sensitive layer *)
Definition of_support {A} (g : flayer -> A) (f : ftd) (i : Z) : result A := rmap g (at_ (f_lVec f) (getEquivLayer f i)).
Definition of_sensitive {A} (g : flayer -> A) (f : ftd) (i : Z) : result A := rmap g (at_ (f_sVec f) (getEquivLayer f i)).
Definition ftd_getNPetals := of_support l_nPetals.                (* 76 *)
Definition ftd_getNSensors := of_support l_nSensors.              (* 92 *)
Definition ftd_isDoubleSided := of_support l_double.              (* 96 *)
Definition ftd_getSensorType := of_support l_type.                (* 103 *)
Definition ftd_getPhiHalfDistance := of_support l_open.           (* 108-109 *)
Definition ftd_getPhi0 := of_support l_phi0.                      (* 113 *)
Definition ftd_getAlpha := of_support l_alpha.                    (* 117 *)
Definition ftd_getZposition := of_support l_z.                    (* 124-125 *)
Definition ftd_getZoffset := of_support l_zoff.                   (* 133-134 *)
Definition ftd_getZoffsetSign0 := of_support l_zsign.             (* 138-139 *)
Definition ftd_getSupportRinner := of_support l_rInner.           (* 151-152 *)
Definition ftd_getSupportRadLength := of_support l_radLen.        (* 157-158 *)
Definition ftd_getSupportThickness := of_support l_thick.         (* 163-164 *)
Definition ftd_getSupportLengthMin := of_support l_lenMin.        (* 170 *)
Definition ftd_getSupportLengthMax := of_support l_lenMax.        (* 176 *)
Definition ftd_getSupportWidth := of_support l_width.             (* 182 *)
Definition ftd_getSensitiveRinner := of_sensitive l_rInner.       (* 202-203 *)
Definition ftd_getSensitiveRadLength := of_sensitive l_radLen.    (* 208 *)
Definition ftd_getSensitiveThickness := of_sensitive l_thick.     (* 212 *)
Definition ftd_getSensitiveLengthMin := of_sensitive l_lenMin.    (* 217 *)
Definition ftd_getSensitiveLengthMax := of_sensitive l_lenMax.    (* 223 *)
Definition ftd_getSensitiveWidth := of_sensitive l_width.         (* 228 *)

(** [(int)pow((double)-1,(double)petalIndex)] *)
Definition minus_one_to (n : Z) : R := if Z.even n then 1 else -1.

(** getSupportZposition, FTDLayerLayoutImpl.cc 100-121 *)
Definition ftd_getSupportZposition (f : ftd) (layer petal : Z) : result R :=
  let id := getEquivLayer f layer in                                              (* 102 *)
  rbind (at_ (f_lVec f) id) (fun p =>                                             (* 104 *)
  rbind (to_int (l_zsign p * minus_one_to petal)) (fun sign =>                    (* 106 *)
  let zpos := l_z p + IZR sign * l_zoff p in                                      (* 108 *)
  Ok ((if (id =? layer)%Z then 1 else -1) * zpos))).                              (* 112-120 *)

(** getSensitiveZposition, FTDLayerLayoutImpl.cc 124-158; 0/0 in line 131 is converted to int *)
Definition ftd_getSensitiveZposition (f : ftd) (layer petal sensor : Z) : result R :=
  rbind (ftd_getSupportZposition f layer petal) (fun zs =>                        (* 127 *)
  let id := getEquivLayer f layer in
  rbind (if Reqb zs 0 then UB else to_int (zs / Rabs zs)) (fun zdisksign =>       (* 131 *)
  rbind (at_ (f_lVec f) id) (fun l =>
  let sign := if (l_double l && (Z.quot (l_nSensors l) 2 <? sensor)%Z)%bool
              then zdisksign else (- zdisksign)%Z in                              (* 132-138 *)
  if ((l_nSensors l <? sensor) || (sensor <? 1))%Z%bool
  then Throw (EGear "FTDLayerLayoutImpl::getSensitiveZposition Error!!")          (* 140-149 *)
  else rbind (at_ (f_sVec f) id) (fun s =>
       Ok (zs + IZR sign * (l_thick l + l_thick s) / 2))))).                      (* 150-154 *)

(** getPhiPetalCd, FTDLayerLayoutImpl.cc 163-169 *)
Definition ftd_getPhiPetalCd (f : ftd) (layer petal : Z) : result R :=
  rmap (fun l => l_phi0 l + IZR petal * 2 * l_open l) (at_ (f_lVec f) (getEquivLayer f layer)).
(** getMaxRadius, FTDLayerLayoutImpl.cc 172-185: the index is used as it is *)
Definition ftd_getMaxRadius (f : ftd) (layer : Z) (sensitive : bool) : result R :=
  rmap (fun l => l_rInner l + l_width l) (at_ (if sensitive then f_sVec f else f_lVec f) layer).
(** getStartPhi, FTDLayerLayoutImpl.cc 189-203 *)
Definition ftd_getStartPhi (f : ftd) (layer petal : Z) (sensitive : bool) : result R :=
  rmap (fun l => 0 - 2 * l_phi0 l) (at_ (if sensitive then f_sVec f else f_lVec f) layer).
(** getEndPhi, FTDLayerLayoutImpl.cc 207-211 *)
Definition ftd_getEndPhi (f : ftd) (layer petal : Z) (sensitive : bool) : result R := Ok 0.
(** getThicknessForAngle, FTDLayerLayoutImpl.cc 215-242; inf and nan are not representable: UB *)
Definition ftd_getThicknessForAngle (f : ftd) (layer : Z) (theta phi : R) (sensitive : bool) : result R :=
  rbind (at_ (if sensitive then f_sVec f else f_lVec f) layer) (fun l =>
  if (Reqb (sin theta) 0 || Reqb (cos phi) 0)%bool then UB
  else Ok (l_thick l * sqrt (1 / (sin theta * sin theta) + tan phi * tan phi))).

(** ** FTDParametersImpl *)
(** getLayerIndex, FTDParametersImpl.cc 22-64: only a return is left *)
Definition ftd_getLayerIndex (f : ftd) (p : vec) : Z := (-1)%Z.
(** getSensitiveIndex, FTDParametersImpl.cc 67-70 *)
Definition ftd_getSensitiveIndex (f : ftd) (p : vec) : Z := (-1)%Z.
(** the search for the petal, FTDParametersImpl.cc 142-153 *)
Fixpoint petal_search (f : ftd) (layer : Z) (sensitive : bool) (phi : R) (n : nat) (petal : Z) : result Z :=
  match n with
  | O => Ok (-1)%Z
  | S n' =>
      rbind (ftd_getStartPhi f layer petal sensitive) (fun lo =>
      rbind (ftd_getEndPhi f layer petal sensitive) (fun hi =>
      if (Rleb phi hi && Rleb lo phi)%bool then Ok petal
      else petal_search f layer sensitive phi n' (petal + 1)%Z))
  end.
(** getPetalIndex, FTDParametersImpl.cc 126-180 *)
Definition ftd_getPetalIndex (f : ftd) (p : vec) (sensitive : bool) : result Z :=
  let layer := ftd_getLayerIndex f p in
  if (layer =? -1)%Z then Ok (-1)%Z                                               (* 130-133 *)
  else
    rbind (ftd_getNPetals f layer) (fun n =>
    rbind (petal_search f layer sensitive (atan2 (vy p) (vx p)) (Z.to_nat n) 0%Z) (fun found =>
    if (found =? -1)%Z then Ok (-1)%Z                                             (* 154-158 *)
    else
      rbind (ftd_getMaxRadius f layer sensitive) (fun rMax =>                     (* 161 *)
      rbind (if sensitive then ftd_getSensitiveRinner f layer else ftd_getSupportRinner f layer) (fun rMin =>
      let r := sqrt (vx p * vx p + vy p * vy p) in
      Ok (if (Rltb r rMin || Rltb rMax r)%bool then (-1)%Z else found))))).       (* 171-176 *)
(** isPointInFTD, FTDParametersImpl.cc 185-205 *)
Definition isPointInFTD (f : ftd) (p : vec) (sensitive : bool) : result bool :=
  rmap (fun i => negb (i =? -1)%Z)
       (if sensitive then Ok (ftd_getSensitiveIndex f p) else ftd_getPetalIndex f p false).
