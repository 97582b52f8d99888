(** Specification vocabulary for the FTD. *)
From Coq Require Import ZArith List Bool Reals.
From Verif Require Import Base RBase FtdModel.
Import ListNotations.
Open Scope R_scope.

(** The layout after adding disks with the arguments in the list, in that order. *)
Definition ftd_made (h : list ftd_args) : ftd := fold_left ftd_addLayer h new_ftd.

(** What the header documents: with N disks added, the indices 0..N-1 are the disks at positive z as
    added, N..2N-1 are their mirror images at negative z.  [Some (k, mirrored)] or nothing. *)
Definition documented (N i : Z) : option (nat * bool) :=
  if ((0 <=? i) && (i <? N))%Z%bool then Some (Z.to_nat i, false)
  else if ((N <=? i) && (i <? 2 * N))%Z%bool then Some (Z.to_nat (i - N), true)
  else None.
(** The disk meant by index [i], according to the documentation. *)
Definition disk (h : list ftd_args) (i : Z) : option (ftd_args * bool) :=
  match documented (Z.of_nat (List.length h)) i with
  | Some (k, mir) => match nth_error h k with Some a => Some (a, mir) | None => None end
  | None => None
  end.
(** The outcome of a look-up: a value for an existing disk, an exception for another index. *)
Definition answers {A} (r : result A) (o : option A) : Prop :=
  match o with Some a => r = Ok a | None => exists e, r = Throw (EOutOfRange e) end.
Definition omap {A B} (f : A -> B) (o : option A) : option B := match o with Some a => Some (f a) | None => None end.

(** Even petals are displaced by sign0*offset, odd petals by -sign0*offset (documentation of
    getZoffset). *)
Definition petal_z (a : ftd_args) (petal : Z) : R :=
  if Z.even petal then a_z a + a_zsign a * a_zoff a else a_z a - a_zsign a * a_zoff a.
Definition at_side (mir : bool) (z : R) : R := if mir then - z else z.
(** Is sensor number [s] on the back side, the side not facing the interaction point? *)
Definition on_back (a : ftd_args) (s : Z) : bool := (a_double a && (a_nSensors a / 2 <? s)%Z)%bool.
(** A sensible sign: +1 or -1. *)
Definition sign_ok (a : ftd_args) : Prop := a_zsign a = 1 \/ a_zsign a = -1.
(** Where the centre of sensor [s] is: on the support, towards the interaction point for a sensor on
    the front, away from it for one on the back. *)
Definition sensor_z (a : ftd_args) (mir : bool) (petal s : Z) : R :=
  let z := at_side mir (petal_z a petal) in let d := (a_supT a + a_senT a) / 2 in
  if Rltb 0 z then (if on_back a s then z + d else z - d) else (if on_back a s then z - d else z + d).
(** The indices that are resolved as documented (all, if there are seven disks), or that denote no
    disk. *)
Definition in_documented_range (h : list ftd_args) (i : Z) : Prop :=
  let N := Z.of_nat (List.length h) in (i <= 6 /\ i < N \/ 6 < i /\ N <= i \/ i < 0 \/ 2 * N <= i)%Z.
