(** The attributes of elements as a user sees them: a list of names and values for each element.  Of the model this uses
    the calls and, to say what the links are, the cells. *)
From Coq Require Import ZArith List String Bool.
From Verif Require Import DomModel AttrModel.
Import ListNotations.
Open Scope Z_scope.

Record attr := mkAttr { t_addr : Z; t_name : string; t_value : string }.
(** an element, known by an address, with its attributes in order *)
Definition elem : Type := Z * list attr.
Definition elems := list elem.
Definition addrs_of (e : elem) : list Z := fst e :: map t_addr (snd e).
Definition all_of (E : elems) : list Z := flat_map addrs_of E.
Definition named (n : string) (x : attr) : bool := String.eqb (t_name x) n.
Definition blank (x : attr) : bool := String.eqb (t_name x) "" && String.eqb (t_value x) "".

(** setting changes the first attribute of that name, and adds one at the end if there is none *)
Inductive sets (n v : string) : list attr -> list attr -> Prop :=
| sets_there l a w r : Forall (fun x => t_name x <> n) l -> sets n v (l ++ mkAttr a n w :: r) (l ++ mkAttr a n v :: r)
| sets_new l a : Forall (fun x => t_name x <> n) l -> sets n v l (l ++ [mkAttr a n v]).
(** what can be reached from the first attribute with Next: until one without name and value, except the first *)
Fixpoint until_blank (l : list attr) : list attr := match l with [] => [] | x :: r => if blank x then [] else x :: until_blank r end.
Definition reachable (l : list attr) : list attr := match l with [] => [] | x :: r => x :: until_blank r end.
(** setting one after the other *)
Inductive sets_all : list attr -> list attr -> list attr -> Prop :=
| sets_none l : sets_all [] l l
| sets_more x q l l1 l2 : sets (t_name x) (t_value x) l l1 -> sets_all q l1 l2 -> sets_all (x :: q) l l2.

(** The rules: use elements and attributes that exist; do not assign an element to itself. *)
Definition allowed (E : elems) (c : acall) : Prop :=
  match c with
  | ANew => True
  | ASet s _ _ | ARemove s _ | ADelete s | ACopy s => In s (map fst E)
  | AAssign t s => In t (map fst E) /\ In s (map fst E) /\ s <> t
  | ASetName a _ | ASetValue a _ => exists e, In e E /\ In a (map t_addr (snd e))
  end.
(** What a call that returned [r] does: an element is changed, all others stay. *)
Definition changes (E : elems) (s : Z) (P : list attr -> list attr -> Prop) (E' : elems) : Prop :=
  exists E1 l E2 l', E = E1 ++ (s, l) :: E2 /\ E' = E1 ++ (s, l') :: E2 /\ P l l'.
Definition did (E : elems) (c : acall) (r : option Z) (E' : elems) : Prop :=
  match c with
  | ANew => exists s, r = Some s /\ ~ In s (all_of E) /\ E' = E ++ [(s, [])]
  | ASet s n v => r = None /\ changes E s (sets n v) E'
  | ARemove s n => r = None /\ changes E s (fun l l' =>
      (exists l1 x l2, l = l1 ++ x :: l2 /\ Forall (fun y => t_name y <> n) l1 /\ t_name x = n /\ l' = l1 ++ l2) \/
      (Forall (fun y => t_name y <> n) l /\ l' = l)) E'
  | ADelete s => r = None /\ exists E1 l E2, E = E1 ++ (s, l) :: E2 /\ E' = E1 ++ E2
  | ACopy s => exists t l l', r = Some t /\ In (s, l) E /\ ~ In t (all_of E) /\ sets_all (reachable l) [] l' /\ E' = E ++ [(t, l')]
  | AAssign t s => r = None /\ exists l, In (s, l) E /\ changes E t (fun _ l' => sets_all (reachable l) [] l') E'
  | ASetName a n => r = None /\ exists s, changes E s (fun l l' => exists l1 m v l2, l = l1 ++ mkAttr a m v :: l2 /\ l' = l1 ++ mkAttr a n v :: l2) E'
  | ASetValue a v => r = None /\ exists s, changes E s (fun l l' => exists l1 n w l2, l = l1 ++ mkAttr a n w :: l2 /\ l' = l1 ++ mkAttr a n v :: l2) E'
  end.

(** The links are those of rings, and nothing else is alive. *)
Fixpoint links_from (h : aheap) (before : Z) (l : list attr) (s : Z) : Prop :=
  match l with
  | [] => True
  | x :: r => acells h (t_addr x) = Some (mkA (Some before) (Some (match r with [] => s | y :: _ => t_addr y end)) (t_name x) (t_value x)) /\
              links_from h (t_addr x) r s
  end.
Definition links (h : aheap) (E : elems) : Prop :=
  NoDup (all_of E) /\ (forall a, acells h a <> None <-> In a (all_of E)) /\
  forall s l, In (s, l) E -> links_from h s l s /\
    acells h s = Some (mkA (Some (last (map t_addr l) s)) (Some (hd s (map t_addr l))) "" "").

Inductive areach : aheap -> Prop :=
| areach_start : areach no_attrs
| areach_step h E k c h' r : areach h -> links h E -> allowed E c -> astep k h c = DOk (h', r) -> areach h'.

(** going through the attributes forwards and backwards *)
Inductive goes_on (next : Z -> dres (option Z)) : option Z -> list Z -> Prop :=
| goes_end : goes_on next None []
| goes_next a b l : next a = DOk b -> goes_on next b l -> goes_on next (Some a) (a :: l).
Definition forwards (h : aheap) (s : Z) (l : list Z) : Prop := exists f, First h s = DOk f /\ goes_on (Next h) f l.
Definition backwards (h : aheap) (s : Z) (l : list Z) : Prop := exists f, Last h s = DOk f /\ goes_on (Previous h) f l.
