(** Model of what the references returned by gear::GearParametersImpl denote later on: the maps with their nodes and the key
    vectors kept in the object (src/gearimpl/GearParametersImpl.cc, include/gear/gearimpl/GearParametersImpl.h 28-140), loops over
    the key vectors, and const calls made by several threads.

    The six copies of the code for the six types are one function of the kind.  Values are opaque ([W]).  A node of a std::map is
    a number: inserting makes a new one, assigning to the value of an existing key writes to it (std::map moves no nodes).
    Clearing a vector makes all iterators into it invalid, whether or not it is filled again.  Copying and assigning whole objects is
    left out, and so is lack of memory. *)
From Coq Require Import Arith List String Bool.
From Verif Require Import Base.
Import ListNotations.

(** the maps _intMap, _doubleMap, _stringMap, _intVecMap, _doubleVecMap, _stringVecMap and the vectors _intKeys ... beside them,
    GearParametersImpl.h 121-134 *)
Inductive kind := KInt | KDouble | KString | KIntVec | KDoubleVec | KStringVec.
Definition kind_eqb (a b : kind) : bool :=
  match a, b with
  | KInt, KInt | KDouble, KDouble | KString, KString | KIntVec, KIntVec | KDoubleVec, KDoubleVec | KStringVec, KStringVec => true
  | _, _ => false
  end.
Record obj (W : Type) := mkO {
  o_map : kind -> smap nat;       (* which node a key has *)
  o_nodes : list W;               (* the values in the nodes, by number *)
  o_keys : kind -> list string;   (* the key vector of the kind *)
  o_clears : kind -> nat          (* how often it has been cleared *)
}.
Arguments mkO {W} _ _ _ _.
Arguments o_map {W} _ _.
Arguments o_nodes {W} _.
Arguments o_keys {W} _ _.
Arguments o_clears {W} _ _.
Definition upd {A} (f : kind -> A) (k : kind) (x : A) : kind -> A := fun j => if kind_eqb k j then x else f j.

Section W.
Context {W : Type}.

(** the constructor, GearParametersImpl.h 31 *)
Definition obj_new : obj W := mkO (fun _ => []) [] (fun _ => []) (fun _ => 0).

Fixpoint put (l : list W) (n : nat) (v : W) : list W :=
  match l, n with
  | [], _ => []
  | _ :: t, O => v :: t
  | x :: t, S n => x :: put t n v
  end.
(** setIntVal, ... setStringVals: GearParametersImpl.cc 53-81 *)
Definition set_val (o : obj W) (k : kind) (key : string) (v : W) : obj W :=
  match sm_find key (o_map o k) with
  | Some n => mkO (o_map o) (put (o_nodes o) n v) (o_keys o) (o_clears o)
  | None => mkO (upd (o_map o) k (sm_set key (List.length (o_nodes o)) (o_map o k))) (o_nodes o ++ [v]) (o_keys o) (o_clears o)
  end.
(** getStringVal, getIntVals, getDoubleVals, getStringVals: the reference that is returned, as the node; GearParametersImpl.cc 5-51.
    getIntVal and getDoubleVal return a copy of what the node has *)
Definition get_ref (o : obj W) (k : kind) (key : string) : result nat :=
  match sm_find key (o_map o k) with Some n => Ok n | None => Throw (EUnknownParameter key) end.
(** what a reference to a value shows *)
Definition deref (o : obj W) (n : nat) : result W :=
  match nth_error (o_nodes o) n with Some v => Ok v | None => UB end.

(** clear() and reserve() in getIntKeys, ... getStringVecKeys: GearParametersImpl.cc 83-84, 94-95, 107-108, 118-119, 129-130, 141-142 *)
Definition clear (o : obj W) (k : kind) : obj W :=
  mkO (o_map o) (o_nodes o) (upd (o_keys o) k []) (upd (o_clears o) k (S (o_clears o k))).
(** push_back(): lines 87, 98, 111, 122, 133, 145 *)
Definition push (o : obj W) (k : kind) (key : string) : obj W :=
  mkO (o_map o) (o_nodes o) (upd (o_keys o) k (o_keys o k ++ [key])) (o_clears o).
(** getIntKeys, ... getStringVecKeys, GearParametersImpl.cc 81-149: the loop goes over the map.  The reference returned is the member, so
    that what it shows later is [o_keys] of the later object *)
Definition get_keys (o : obj W) (k : kind) : obj W := fold_left (fun o key => push o k key) (sm_keys (o_map o k)) (clear o k).

(** calls on one object *)
Inductive call := CSet (k : kind) (key : string) (v : W) | CGet (k : kind) (key : string) | CKeys (k : kind).
Definition do_call (o : obj W) (c : call) : obj W :=
  match c with CSet k key v => set_val o k key v | CGet _ _ => o | CKeys k => get_keys o k end.
Definition do_calls (o : obj W) (cs : list call) : obj W := fold_left do_call cs o.

(** for( StringVec::const_iterator it = keys.begin() ; it != keys.end() ; ++it ) { body } with [keys] the vector of kind [k].
    Comparing, incrementing or reading an iterator from before the last clear() is undefined.  With the keys the body saw; None: [n] turns are not enough *)
Fixpoint it_loop (n : nat) (k : kind) (g i : nat) (body : string -> list call) (o : obj W) : option (result (list string * obj W)) :=
  match n with
  | O => None
  | S n =>
      if negb (o_clears o k =? g) then Some UB
      else match nth_error (o_keys o k) i with
           | None => Some (Ok ([], o))
           | Some key =>
               match it_loop n k g (S i) body (do_calls o (body key)) with
               | Some (Ok (l, o')) => Some (Ok (key :: l, o'))
               | r => r
               end
           end
  end.
(** [keys] is what getIntKeys etc. returned just before *)
Definition for_iterator (n : nat) (k : kind) (body : string -> list call) (o : obj W) : option (result (list string * obj W)) :=
  let o := get_keys o k in it_loop n k (o_clears o k) 0 body o.

(** for( unsigned i = 0 ; i < keys.size() ; ++i ) { body }, as in src/gearxml/GearParametersXML.cc 106-115 *)
Fixpoint ix_loop (n : nat) (k : kind) (i : nat) (body : string -> list call) (o : obj W) : option (list string * obj W) :=
  match n with
  | O => None
  | S n =>
      match nth_error (o_keys o k) i with
      | None => Some ([], o)
      | Some key =>
          match ix_loop n k (S i) body (do_calls o (body key)) with
          | Some (l, o') => Some (key :: l, o')
          | None => None
          end
      end
  end.
Definition for_index (n : nat) (k : kind) (body : string -> list call) (o : obj W) : option (list string * obj W) :=
  ix_loop n k 0 body (get_keys o k).

(** ** Threads *)

(** what a thread has still to do in calls of const functions: the steps of the key functions, in order (the return shows the
    vector to the caller).  Simplification: clear, push_back and looking at the vector are single steps. *)
Inductive act := AClear (k : kind) | APush (k : kind) (key : string) | AShow (k : kind) | AGet (k : kind) (key : string).
Definition acts_of (o : obj W) (c : call) : list act :=
  match c with
  | CSet _ _ _ => []
  | CGet k key => [AGet k key]
  | CKeys k => AClear k :: map (APush k) (sm_keys (o_map o k)) ++ [AShow k]
  end.
(** what a thread has seen: the vector after a key function, the value after another one *)
Inductive seen := SKeys (k : kind) (l : list string) | SVal (k : kind) (key : string) (r : result W).
Definition do_act (o : obj W) (a : act) : obj W * list seen :=
  match a with
  | AClear k => (clear o k, [])
  | APush k key => (push o k key, [])
  | AShow k => (o, [SKeys k (o_keys o k)])
  | AGet k key => (o, [SVal k key (rbind (get_ref o k key) (deref o))])
  end.
(** threads, each with what it has left to do; a schedule says which one is next *)
Fixpoint take (ts : list (list act)) (i : nat) : option (act * list (list act)) :=
  match ts, i with
  | [], _ => None
  | (a :: t) :: r, O => Some (a, t :: r)
  | [] :: _, O => None
  | t :: r, S i => match take r i with Some (a, r') => Some (a, t :: r') | None => None end
  end.
Fixpoint run (o : obj W) (ts : list (list act)) (sched : list nat) : obj W * list (list act) * list (nat * seen) :=
  match sched with
  | [] => (o, ts, [])
  | i :: sched =>
      match take ts i with
      | None => run o ts sched
      | Some (a, ts') =>
          let (o', s) := do_act o a in
          let '(o'', ts'', l) := run o' ts' sched in (o'', ts'', map (pair i) s ++ l)
      end
  end.
Definition threads (o : obj W) (ps : list (list call)) : list (list act) := map (fun p => flat_map (acts_of o) p) ps.
End W.
