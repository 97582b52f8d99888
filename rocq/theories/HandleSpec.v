(** What handles should lead to, said on trees. *)
From Coq Require Import ZArith List String Bool.
From Verif Require Import DomModel DomSpec HandleModel.
Import ListNotations.
Open Scope Z_scope.

(** The children a call looks at: those of the given value, if one is given; elements only, for the calls named after them. *)
Definition has_value (v : option string) (t : tree) : bool := match v with Some w => String.eqb (n_value (dat t)) w | None => true end.
Definition element (t : tree) : bool := match n_kind (dat t) with KElem => true | _ => false end.
(** The child with the given number among those of a list, counted from 0.  A negative number gives the first. *)
Definition numbered (n : Z) (l : list tree) : option tree := if n <? 0 then hd_error l else nth_error l (Z.to_nat n).
Definition led_to (c : hcall) (t : tree) : option tree :=
  match c with
  | FirstChild_ v => hd_error (filter (has_value v) (kids t))
  | FirstChildElement_ v => hd_error (filter element (filter (has_value v) (kids t)))
  | Child_ v n => numbered n (filter (has_value v) (kids t))
  | ChildElement_ v n => numbered n (filter element (filter (has_value v) (kids t)))
  end.
(** A chain of calls, from a node. *)
Fixpoint path (cs : list hcall) (t : tree) : option tree :=
  match cs with [] => Some t | c :: cs => match led_to c t with Some t' => path cs t' | None => None end end.
