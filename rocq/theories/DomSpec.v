(** The nodes of documents as a user sees them: a forest of trees.  Of the model this uses the calls, the contents of
    nodes and, to say what the links are, the cells. *)
From Coq Require Import ZArith List String Bool.
From Verif Require Import DomModel.
Import ListNotations.
Open Scope Z_scope.

(** a node, known by its address, with its contents and its children in order *)
Inductive tree := Node (a : Z) (d : data) (ch : list tree).
Definition addr (t : tree) : Z := match t with Node a _ _ => a end.
Definition dat (t : tree) : data := match t with Node _ d _ => d end.
Definition kids (t : tree) : list tree := match t with Node _ _ ch => ch end.
Fixpoint subs (t : tree) : list tree := t :: match t with Node _ _ ch => flat_map subs ch end.
Fixpoint addrs (t : tree) : list Z := match t with Node a _ ch => a :: flat_map addrs ch end.
(** the trees that exist; their roots are the user's, everything below a root belongs to its tree *)
Definition forest := list tree.
Definition all (F : forest) : list Z := flat_map addrs F.
(** [t] is a node of [F] with all that is below it *)
Definition node_of (F : forest) (t : tree) : Prop := In t (flat_map subs F).
Definition child_of (F : forest) (p b : Z) : Prop := exists d ch, node_of F (Node p d ch) /\ In b (map addr ch).
(** put [s] in the place of the node [p] *)
Fixpoint put_at (p : Z) (s : tree) (t : tree) : tree :=
  match t with Node a d ch => if Z.eq_dec a p then s else Node a d (map (put_at p s) ch) end.
Definition place (p : Z) (s : tree) (F : forest) : forest := map (put_at p s) F.

(** elements and documents are copied with their children, other nodes without *)
Definition container (k : nkind) : bool := match k with KDoc | KElem => true | _ => false end.
Inductive same : tree -> tree -> Prop :=
| same_node a b d ch ch' : Forall2 same (if container (n_kind d) then ch else []) ch' -> same (Node a d ch) (Node b d ch').
(** new nodes: each only once, none of those that exist *)
Definition new_to (F : forest) (T : list tree) : Prop := NoDup (all T) /\ forall x, In x (all T) -> ~ In x (all F).

(** The rules: use what exists; delete and link only roots, and a root not below itself; RemoveChild is for children;
    assign between nodes of one type, neither of them within the other. *)
Definition allowed (F : forest) (c : call) : Prop :=
  match c with
  | NNew _ => True
  | NLink p n => exists l t r, F = l ++ t :: r /\ addr t = n /\ In p (all (l ++ r))
  | NInsEnd p q => In p (all F) /\ In q (all F)
  | NInsBefore p b q | NInsAfter p b q => In p (all F) /\ In q (all F) /\ match b with Some x => In x (all F) | None => True end
  | NReplace p b q => In p (all F) /\ In q (all F) /\ In b (all F)
  | NRemove p b => child_of F p b
  | NClear a | NCopy a => In a (all F)
  | NDelete a => In a (map addr F)
  | NAssign a b => exists ta tb, node_of F ta /\ addr ta = a /\ node_of F tb /\ addr tb = b /\ n_kind (dat ta) = n_kind (dat tb) /\
                     container (n_kind (dat ta)) = true /\ ~ In a (addrs tb) /\ ~ In b (addrs ta)
  end.

(** What a call that returned [r] does to the forest. *)
Definition did (F : forest) (c : call) (r : option Z) (F' : forest) : Prop :=
  match c with
  | NNew d => exists a, r = Some a /\ ~ In a (all F) /\ F' = F ++ [Node a d []]
  | NLink p n => exists l t rr d ch, F = l ++ t :: rr /\ addr t = n /\ node_of (l ++ rr) (Node p d ch) /\
      r = Some n /\ F' = place p (Node p d (ch ++ [t])) (l ++ rr)
  | NInsEnd p q => exists tq t d ch, node_of F tq /\ addr tq = q /\ same tq t /\ new_to F [t] /\ node_of F (Node p d ch) /\
      r = Some (addr t) /\ F' = place p (Node p d (ch ++ [t])) F
  | NInsBefore p b q =>
      (exists tq t d l x rr, node_of F tq /\ addr tq = q /\ same tq t /\ new_to F [t] /\ b = Some (addr x) /\
         node_of F (Node p d (l ++ x :: rr)) /\ r = Some (addr t) /\ F' = place p (Node p d (l ++ t :: x :: rr)) F) \/
      (match b with Some x => ~ child_of F p x | None => True end /\ r = None /\ F' = F)
  | NInsAfter p b q =>
      (exists tq t d l x rr, node_of F tq /\ addr tq = q /\ same tq t /\ new_to F [t] /\ b = Some (addr x) /\
         node_of F (Node p d (l ++ x :: rr)) /\ r = Some (addr t) /\ F' = place p (Node p d (l ++ x :: t :: rr)) F) \/
      (match b with Some x => ~ child_of F p x | None => True end /\ r = None /\ F' = F)
  | NReplace p b q =>
      (exists tq t d l x rr, node_of F tq /\ addr tq = q /\ same tq t /\ new_to F [t] /\ b = addr x /\
         node_of F (Node p d (l ++ x :: rr)) /\ r = Some (addr t) /\ F' = place p (Node p d (l ++ t :: rr)) F) \/
      (~ child_of F p b /\ r = None /\ F' = F)
  | NRemove p b => exists d l x rr, node_of F (Node p d (l ++ x :: rr)) /\ addr x = b /\ r = None /\
      F' = place p (Node p d (l ++ rr)) F
  | NClear a => exists d ch, node_of F (Node a d ch) /\ r = None /\ F' = place a (Node a d []) F
  | NDelete a => exists l t rr, F = l ++ t :: rr /\ addr t = a /\ r = None /\ F' = l ++ rr
  | NCopy a => exists ta t, node_of F ta /\ addr ta = a /\ same ta t /\ new_to F [t] /\ r = Some (addr t) /\ F' = F ++ [t]
  | NAssign a b => exists tb ch, node_of F tb /\ addr tb = b /\ Forall2 same (kids tb) ch /\ new_to F ch /\ r = None /\
      F' = place a (Node a (dat tb) ch) F
  end.

(** The links are those of the forest, and nothing else is alive. *)
Definition last_addr (l : list tree) : option Z := match rev l with [] => None | t :: _ => Some (addr t) end.
Definition links (h : heap) (F : forest) : Prop :=
  NoDup (all F) /\
  (forall a, cells h a <> None <-> In a (all F)) /\
  (forall t, In t F -> exists c, cells h (addr t) = Some c /\ c_parent c = None /\ c_prev c = None /\ c_next c = None) /\
  (forall a d ch, node_of F (Node a d ch) ->
     (exists c, cells h a = Some c /\ c_data c = d /\ c_first c = option_map addr (nth_error ch 0) /\ c_last c = last_addr ch) /\
     (forall i x, nth_error ch i = Some x -> exists c, cells h (addr x) = Some c /\ c_parent c = Some a /\
        c_next c = option_map addr (nth_error ch (S i)) /\
        c_prev c = match i with O => None | S j => option_map addr (nth_error ch j) end)).

(** The nodes after any calls within the rules, a document having as many nodes as one likes. *)
Inductive reach : heap -> Prop :=
| reach_start : reach no_nodes
| reach_step h F k c h' r : reach h -> links h F -> allowed F c -> step k h c = DOk (h', r) -> reach h'.

(** Going through the children with IterateChildren, from null until it returns null, visits [l]. *)
Inductive visits (h : heap) (p : Z) : option Z -> list Z -> Prop :=
| visits_end from : IterateChildren h p from = DOk None -> visits h p from []
| visits_next from a l : IterateChildren h p from = DOk (Some a) -> visits h p (Some a) l -> visits h p from (a :: l).
(** The same with a value. *)
Inductive visits_value (k : nat) (h : heap) (p : Z) (v : string) : option Z -> list Z -> Prop :=
| vv_end from : IterateChildrenV k h p v from = DOk None -> visits_value k h p v from []
| vv_next from a l : IterateChildrenV k h p v from = DOk (Some a) -> visits_value k h p v (Some a) l -> visits_value k h p v from (a :: l).
Definition with_value (v : string) (t : tree) : bool := String.eqb (n_value (dat t)) v.
(** The document a node is in: the nearest one at or above it. *)
Inductive doc_of (F : forest) : Z -> option Z -> Prop :=
| doc_here a d ch : node_of F (Node a d ch) -> n_kind d = KDoc -> doc_of F a (Some a)
| doc_none a d ch : In (Node a d ch) F -> n_kind d <> KDoc -> doc_of F a None
| doc_above a d ch p r : node_of F (Node a d ch) -> n_kind d <> KDoc -> child_of F p a -> doc_of F p r -> doc_of F a r.
