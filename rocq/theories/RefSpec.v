(** What references, loops and threads should see, in terms of the calls made. *)
From Coq Require Import List String Sorted.
From Verif Require Import Base RefModel.
Import ListNotations.

Section W.
Context {W : Type}.
(** [v] is what the last call in [h] that set [key] of kind [k] gave it *)
Definition stored (h : list (@call W)) (k : kind) (key : string) (v : W) : Prop :=
  exists h1 h2, h = h1 ++ CSet k key v :: h2 /\ forall v', ~ In (CSet k key v') h2.
Definition has_key (h : list (@call W)) (k : kind) (key : string) : Prop := exists v, In (CSet k key v) h.
(** [l] has the keys of kind [k] that have been set, each once, in order *)
Definition keys_of (h : list (@call W)) (k : kind) (l : list string) : Prop :=
  StronglySorted slt l /\ forall key, In key l <-> has_key h k key.
(** [l] has the keys there were at the last call of the key function of [k] *)
Definition keys_then (h : list (@call W)) (k : kind) (l : list string) : Prop :=
  (~ In (CKeys k) h /\ l = []) \/ exists h1 h2, h = h1 ++ CKeys k :: h2 /\ ~ In (CKeys k) h2 /\ keys_of h1 k l.
(** no call sets anything *)
Definition reads_only (p : list (@call W)) : Prop := forall k key v, ~ In (CSet k key v) p.
(** what a thread may have seen of an object after the calls [h] *)
Definition right (h : list (@call W)) (s : @seen W) : Prop :=
  match s with
  | SKeys k l => keys_of h k l
  | SVal k key r => (exists v, r = Ok v /\ stored h k key v) \/ (r = Throw (EUnknownParameter key) /\ ~ has_key h k key)
  end.
End W.
