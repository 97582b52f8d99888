(** What merging a recessive tree into a dominant one means. *)
From Coq Require Import ZArith List String Ascii Bool.
From Verif Require Import Base XmlModel XmlSpec HxModel MergeModel.
Import ListNotations.
Local Open Scope string_scope.

(** How children are identified: by their attribute "name" if they have one, by the name of the
    element (or the text) otherwise.  The flag tells the two apart. *)
Definition label (n : xnode) : string * bool :=
  match n with
  | XElem v a _ => match Attribute "name" a with Some s => (s, true) | None => (c_str v, false) end
  | _ => (c_str (Value n), false)
  end.
Definition named (n : xnode) : Prop := snd (label n) = true.
Definition label_dec (a b : string * bool) : {a = b} + {a <> b}.
Proof. decide equality; [apply Bool.bool_dec|apply String.string_dec]. Defined.
Definition same (a b : xnode) : bool := if label_dec (label a) (label b) then true else false.
(** the children in [l] with the label of [x] *)
Definition alike (x : xnode) (l : list xnode) : list xnode := filter (same x) l.
Definition count (x : xnode) (l : list xnode) : nat := List.length (alike x l).

(** Trees without NUL bytes and repeated attributes: what a copy preserves. *)
Inductive sound : xnode -> Prop :=
| So_elem : forall n a ch, no_nul n -> NoDup (map fst a) -> (forall k v, In (k, v) a -> no_nul k /\ no_nul v) ->
    (forall c, In c ch -> sound c) -> sound (XElem n a ch)
| So_text : forall s, no_nul s -> sound (XText s)
| So_comment : forall s, no_nul s -> sound (XComment s)
| So_unknown : forall s, no_nul s -> sound (XUnknown s)
| So_decl : forall v e s, sound (XDecl v e s).

(** [d'] is [d] with nothing taken away or changed: attributes and children may be added behind
    those that were there. *)
Inductive keeps : xnode -> xnode -> Prop :=
| K_same : forall n, keeps n n
| K_elem : forall n a ch extra ch' added,
    (forall k, In k (map fst extra) -> ~ In k (map fst a)) -> Forall2 keeps ch ch' ->
    keeps (XElem n a ch) (XElem n (a ++ extra)%list (ch' ++ added)%list).
Definition extends (l l' : list xnode) : Prop :=
  exists kept added, l' = (kept ++ added)%list /\ Forall2 keeps l kept.

(** The child of the recessive node that belongs to the [i]-th child [d] of the dominant one: the
    first with the label of [d] for the first child with that label, and so on. *)
Definition counterpart (rec dom : list xnode) (i : nat) (d : xnode) : option xnode :=
  nth_error (alike d rec) (count d (firstn i dom)).
(** children of [rec] whose label does not occur in [dom] *)
Definition only_in (rec dom : list xnode) : list xnode := filter (fun x => Nat.eqb (count x dom) 0) rec.

(** merging goes down into elements with a name that do not begin with text *)
Definition goes_down (x : xnode) : Prop := named x /\ forall c t, children x = c :: t -> is_text c = false.

(** attributes of [a], then those of [b] that are new *)
Definition joined_attrs (b a : list (string * string)) : list (string * string) :=
  (a ++ filter (fun kv => if in_dec String.string_dec (fst kv) (map fst a) then false else true) b)%list.

(** [combined x d o]: the recessive node [x] merged into the dominant node [d] gives [o];
    [merged rec dom out]: the same for lists of children. *)
Inductive combined : xnode -> xnode -> xnode -> Prop :=
| C_other : forall x d, HxModel.is_elem x && HxModel.is_elem d = false -> combined x d d
| C_flat : forall n a ch n' b ch', ~ goes_down (XElem n' b ch') ->
    combined (XElem n' b ch') (XElem n a ch) (XElem n (joined_attrs b a) ch)
| C_down : forall n a ch n' b ch' out, goes_down (XElem n' b ch') -> merged ch' ch out ->
    combined (XElem n' b ch') (XElem n a ch) (XElem n (joined_attrs b a) out)
with merged : list xnode -> list xnode -> list xnode -> Prop :=
| Merged : forall rec dom first, List.length first = List.length dom ->
    (forall i d x o, nth_error dom i = Some d -> counterpart rec dom i d = Some x -> nth_error first i = Some o -> combined x d o) ->
    (forall i d, nth_error dom i = Some d -> counterpart rec dom i d = None -> nth_error first i = Some d) ->
    merged rec dom (first ++ only_in rec dom)%list.

(** Children with the same label stand next to each other, and a named child is not next to an
    unnamed one whose name is the same text. *)
Definition orderly (l : list xnode) : Prop :=
  (forall a x b y c, l = (a ++ x :: b ++ y :: c)%list -> label x = label y -> forall z, In z b -> label z = label x) /\
  (forall a x y c, l = (a ++ x :: y :: c)%list -> fst (label x) = fst (label y) -> label x = label y).
(** Repeated labels occur equally often on both sides. *)
Definition same_counts (rec dom : list xnode) : Prop :=
  forall x, In x rec -> (count x rec <= 1 /\ count x dom <= 1)%nat \/ count x rec = count x dom.

Inductive mergeable : list xnode -> list xnode -> Prop :=
| Mergeable : forall rec dom, orderly rec -> same_counts rec dom ->
    (forall i d x, nth_error dom i = Some d -> counterpart rec dom i d = Some x -> named x -> children x <> []) ->
    (forall i d x, nth_error dom i = Some d -> counterpart rec dom i d = Some x -> goes_down x ->
       mergeable (children x) (children d)) ->
    mergeable rec dom.

(** ** Documents *)
(** the first node with the name [v], and that node with new children *)
Definition section (v : string) (l : list xnode) : option xnode := find (fun c => String.eqb (Value c) v) l.
Inductive section_set (v : string) (out : list xnode) : list xnode -> list xnode -> Prop :=
| Section : forall a n at_ ch b, n = v -> (forall c, In c a -> Value c <> v) ->
    section_set v out (a ++ XElem n at_ ch :: b)%list (a ++ XElem n at_ out :: b)%list.

(** "every node of the tree is sound" for a document *)
Definition sound_doc (d : list xnode) : Prop := forall n, In n d -> sound n.
(** the three parts of a file that are merged *)
Definition merged_part (v : string) : Prop := v = "global" \/ v = "detectors" \/ v = "materials".

(** the file whose contents win, and the other one *)
Definition dominant (m : merger) : option (list xnode) := if (_domFile m =? 1)%Z then _file1 m else _file2 m.
Definition recessive (m : merger) : option (list xnode) := if (_domFile m =? 1)%Z then _file2 m else _file1 m.
(** both files are there and sound *)
Definition docs_of (m : merger) (r d : list xnode) : Prop := recessive m = Some r /\ dominant m = Some d /\ sound_doc r /\ sound_doc d.
(** what a call of mergeFiles gives, and the state it leaves *)
Definition outcome {S A} (r : sres S A) : result A := match r with SOk _ a => Ok a | SThrow _ e => Throw e | SUB => UB end.
Definition state_of {S A} (r : sres S A) : option S := match r with SOk s _ => Some s | SThrow s _ => Some s | SUB => None end.
