(** Model of XMLHandlerMgr (src/gearxml/XMLHandlerMgr.cc 24-83).  A handler is a pointer: 0 is null; the
    handlers the constructor makes are 1 to 7.  The memory: which handlers were deleted. *)
From Coq Require Import ZArith List Bool String.
From Verif Require Import Base.
Import ListNotations.
Open Scope string_scope.
Open Scope Z_scope.

(** _map, and the handlers that were deleted, last first *)
Record hmgr := mkHM { hm_map : smap Z; hm_dead : list Z }.
(** constructor, 46-56; the strings: src/gearimpl/GEAR.cc 5-11 *)
Definition new_hmgr : hmgr :=
  mkHM (sm_set "SiPlanesParameters" 7 (sm_set "TrackerPlanesParameters" 6 (sm_set "FTDParameters" 5 (sm_set "ZPlanarParameters" 4
       (sm_set "CalorimeterParameters" 3 (sm_set "TPCParameters" 2 (sm_set "GearParameters" 1 []))))))) [].
(** delete: nothing for null, undefined for a handler that was deleted before *)
Definition delete_h (h : Z) (dead : list Z) : result (list Z) :=
  if h =? 0 then Ok dead else if existsb (Z.eqb h) dead then UB else Ok (h :: dead).
(** getHandler, 59-62: operator[] makes an entry with a null pointer if there is none *)
Definition getHandler (s : hmgr) (t : string) : Z * hmgr :=
  match sm_find t (hm_map s) with
  | Some h => (h, s)
  | None => (0, mkHM (sm_set t 0 (hm_map s)) (hm_dead s))
  end.
(** setHandler, 65-83 *)
Definition setHandler (s : hmgr) (t : string) (h : Z) : result hmgr :=
  if h =? 0 then Ok s
  else match sm_find t (hm_map s) with
       | Some old => rmap (fun dead => mkHM (sm_set t h (hm_map s)) dead) (delete_h old (hm_dead s))
       | None => Ok (mkHM (sm_set t h (hm_map s)) (hm_dead s))
       end.
(** the destructor, 35-43 *)
Fixpoint delete_all (l : list Z) (dead : list Z) : result (list Z) :=
  match l with
  | [] => Ok dead
  | h :: l' => rbind (delete_h h dead) (delete_all l')
  end.
Definition destroy (s : hmgr) : result (list Z) := delete_all (map snd (hm_map s)) (hm_dead s).
