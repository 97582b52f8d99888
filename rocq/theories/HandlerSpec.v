(** Specification vocabulary for the registry of XML handlers, and for cell ids. *)
From Coq Require Import ZArith List Bool String.
From Verif Require Import Base HandlerModel.
Import ListNotations.
Open Scope string_scope.
Open Scope Z_scope.

(** Calls of the user. *)
Inductive hop := HGet (t : string) | HSet (t : string) (h : Z).
Definition hstep (s : hmgr) (o : hop) : result hmgr :=
  match o with HGet t => Ok (snd (getHandler s t)) | HSet t h => setHandler s t h end.
Fixpoint hrun (s : hmgr) (l : list hop) : result hmgr :=
  match l with [] => Ok s | o :: l' => rbind (hstep s o) (fun s' => hrun s' l') end.
(** The handler that comes with the library. *)
Definition built_in (t : string) : Z :=
  if String.eqb t "GearParameters" then 1 else if String.eqb t "TPCParameters" then 2 else if String.eqb t "CalorimeterParameters" then 3
  else if String.eqb t "ZPlanarParameters" then 4 else if String.eqb t "FTDParameters" then 5 else if String.eqb t "TrackerPlanesParameters" then 6
  else if String.eqb t "SiPlanesParameters" then 7 else 0.
(** The handler registered last for a type: null registrations do not count; [d] if there is none. *)
Fixpoint last_set (t : string) (d : Z) (l : list hop) : Z :=
  match l with
  | [] => d
  | HSet t' h :: l' => last_set t (if (String.eqb t t' && negb (h =? 0))%bool then h else d) l'
  | HGet _ :: l' => last_set t d l'
  end.
(** The handlers handed over. *)
Fixpoint given (l : list hop) : list Z :=
  match l with [] => [] | HSet _ h :: l' => if h =? 0 then given l' else h :: given l' | HGet _ :: l' => given l' end.
(** Every handler is handed over once, and is not one of the library's own. *)
Definition given_once (l : list hop) : Prop := NoDup (given l) /\ forall h, In h (given l) -> ~ 1 <= h <= 7.

(** A bit pattern of 32 bits as a signed number. *)
Definition is_int32 (z : Z) : Prop := -2147483648 <= z <= 2147483647.
