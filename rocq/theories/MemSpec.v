(** Ownership, as a user keeps book of it.  Of the model this uses the calls and what they give back. *)
From Coq Require Import ZArith List Bool.
From Verif Require Import MemModel.
Import ListNotations.
Open Scope Z_scope.

(** What exists, and whose it is.  A list of pads belongs to a layout; a layout belongs to the user ([None]) or to a
    module; a module belongs to the user or to a TPC; TPCs belong to the user. *)
Record book := mkBook {
  b_pads : Z -> option Z;
  b_lay : Z -> option (option Z);
  b_mod : Z -> option (option Z);
  b_tpc : Z -> bool }.

Definition empty_book : book := mkBook (fun _ => None) (fun _ => None) (fun _ => None) (fun _ => false).

(** The rules: use what exists; give away and delete only what is yours; do not assign a module to itself. *)
Definition allowed (b : book) (c : call) : Prop :=
  match c with
  | CNewLayout _ _ | CNewTpc _ => True
  | CAddRows l _ | CPads l _ | CCopyLayout l => b_lay b l <> None
  | CAssignLayout l r => b_lay b l <> None /\ b_lay b r <> None
  | CDelLayout l => b_lay b l = Some None
  | CNewModule _ l _ => b_lay b l = Some None
  | CCopyModule x => b_mod b x <> None
  | CAssignModule x y => b_mod b x <> None /\ b_mod b y <> None /\ x <> y
  | CDelModule x => b_mod b x = Some None
  | CAddModule t None => b_tpc b t = true
  | CAddModule t (Some x) => b_tpc b t = true /\ b_mod b x = Some None
  | CSetPadLayout t l => b_tpc b t = true /\ b_lay b l = Some None
  | CDelTpc t => b_tpc b t = true
  end.

Definition put {A} (f : Z -> A) (a : Z) (x : A) : Z -> A := fun b => if Z.eq_dec b a then x else f b.
(** forget the lists of pads of the layouts in [dead] *)
Definition drop_pads (dead : Z -> bool) (f : Z -> option Z) : Z -> option Z :=
  fun v => match f v with Some l => if dead l then None else Some l | None => None end.
Definition is (a : Z) : Z -> bool := fun b => if Z.eq_dec b a then true else false.
(** the layouts of the modules in [dead] *)
Definition lay_of (dead : Z -> bool) (b : book) : Z -> bool :=
  fun l => match b_lay b l with Some (Some x) => dead x | _ => false end.
(** the modules of TPC [t] *)
Definition mod_of (t : Z) (b : book) : Z -> bool :=
  fun x => match b_mod b x with Some (Some u) => is t u | _ => false end.
Definition without {A} (dead : Z -> bool) (f : Z -> option A) : Z -> option A := fun a => if dead a then None else f a.

(** What a call that returned [r] changes in the book. *)
Definition booked (b : book) (c : call) (r : out) : book :=
  match c, r with
  | CNewLayout _ _, OAddr l | CCopyLayout _, OAddr l => mkBook (b_pads b) (put (b_lay b) l (Some None)) (b_mod b) (b_tpc b)
  | CPads l _, ORef v => mkBook (put (b_pads b) v (Some l)) (b_lay b) (b_mod b) (b_tpc b)
  | CAssignLayout l _, _ => mkBook (drop_pads (is l) (b_pads b)) (b_lay b) (b_mod b) (b_tpc b)
  | CDelLayout l, _ => mkBook (drop_pads (is l) (b_pads b)) (put (b_lay b) l None) (b_mod b) (b_tpc b)
  | CNewModule _ l _, OAddr x => mkBook (b_pads b) (put (b_lay b) l (Some (Some x))) (put (b_mod b) x (Some None)) (b_tpc b)
  | CCopyModule _, OPair x l => mkBook (b_pads b) (put (b_lay b) l (Some (Some x))) (put (b_mod b) x (Some None)) (b_tpc b)
  | CAssignModule x _, OAddr l =>
      mkBook (drop_pads (lay_of (is x) b) (b_pads b)) (put (without (lay_of (is x) b) (b_lay b)) l (Some (Some x)))
             (b_mod b) (b_tpc b)
  | CDelModule x, _ =>
      mkBook (drop_pads (lay_of (is x) b) (b_pads b)) (without (lay_of (is x) b) (b_lay b)) (put (b_mod b) x None) (b_tpc b)
  | CNewTpc _, OAddr t => mkBook (b_pads b) (b_lay b) (b_mod b) (put (b_tpc b) t true)
  | CAddModule t (Some x), _ => mkBook (b_pads b) (b_lay b) (put (b_mod b) x (Some (Some t))) (b_tpc b)
  | CSetPadLayout t l, OAddr x =>
      mkBook (b_pads b) (put (b_lay b) l (Some (Some x))) (put (b_mod b) x (Some (Some t))) (b_tpc b)
  | CDelTpc t, _ =>
      mkBook (drop_pads (lay_of (mod_of t b) b) (b_pads b)) (without (lay_of (mod_of t b) b) (b_lay b))
             (without (mod_of t b) (b_mod b)) (put (b_tpc b) t false)
  | _, _ => b
  end.

(** Memory and book after any calls within the rules; a call that throws changes nothing in the book. *)
Inductive reach : mem -> book -> Prop :=
| reach_start : reach start empty_book
| reach_ok m b c m' r : reach m b -> allowed b c -> step m c = MOk m' r -> reach m' (booked b c r)
| reach_throw m b c m' : reach m b -> allowed b c -> step m c = MThrow m' -> reach m' b.
