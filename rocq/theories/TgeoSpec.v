(** Specification vocabulary for the queries between two points. *)
From Coq Require Import ZArith List Bool Reals String.
From Verif Require Import Base RBase VecModel TgeoModel.
Import ListNotations.
Open Scope R_scope.

(** One call: which query, from where to where. *)
Definition call : Type := qkind * (vec * vec).
Definition kind_of (c : call) : qkind := fst c.
Definition ends_of (c : call) : vec * vec := snd c.
Definition degenerate (c : call) : Prop := fst (ends_of c) = snd (ends_of c).
Definition asks_list (k : qkind) : Prop := k = QMaterials \/ k = QVolumes \/ k = QThicknesses.
(** The object after a list of calls; exceptions are caught and the next call is made. *)
Definition after (g : geometry) (s : dprops) (h : list call) : dprops :=
  fold_left (fun s c => snd (query g (kind_of c) (fst (ends_of c)) (snd (ends_of c)) s)) h s.
(** What the last call answers after a history of others, and what a new object answers. *)
Definition ask (g : geometry) (h : list call) (c : call) : result answer :=
  fst (query g (kind_of c) (fst (ends_of c)) (snd (ends_of c)) (after g new_dprops h)).
Definition fresh (g : geometry) (c : call) : result answer := ask g [] c.

(** ** The way of a straight track *)
(** The point at distance t on the way from p0 to p1. *)
Definition on_way (p0 p1 : vec) (t : R) (p : vec) : Prop :=
  vsub p p0 = vscale (t / vdistance p1 p0) (vsub p1 p0).
(** A list of pieces (node, distance from p0 at which it ends); [t0] is where the first begins. *)
Fixpoint increasing (t0 : R) (l : list (gnode * R)) : Prop :=
  match l with [] => True | (_, t) :: l' => t0 + MINSTEP <= t /\ increasing t l' end.
(** The navigator reports these pieces one after the other, then leaves the world. *)
Fixpoint reports (p0 p1 : vec) (t0 : R) (l : list (gnode * R)) (r : list (nav * nav)) : Prop :=
  match l, r with
  | [], [] => True
  | [], (v, _) :: _ => nv_out v = true \/ nv_node v = None
  | (n, t) :: l', (v, _) :: r' =>
      nv_out v = false /\ nv_node v = match l' with [] => nv_node v | (n', _) :: _ => Some n' end /\ nv_node v <> None /\
      on_way p0 p1 t (nv_pos v) /\ on_way p0 p1 t0 (nv_prev v) /\ nv_len v = t - t0 /\
      reports p0 p1 t l' r'
  | _ :: _, [] => False
  end.
(** The pieces that lie before the distance L, the last one cut off there: node and thickness. *)
Fixpoint pieces (t0 L : R) (l : list (gnode * R)) : list (gnode * R) :=
  match l with
  | [] => []
  | (n, t) :: l' => if Rltb L t then [(n, L - t0)] else (n, t - t0) :: pieces t L l'
  end.
Fixpoint sum_list (l : list R) : R := match l with [] => 0 | x :: l' => x + sum_list l' end.
(** thickness over length; a length of 0 stands for "not known" and does not count *)
Definition part_len (d len : R) : R := if Reqb len 0 then 0 else d / len.
(** The world reaches beyond the end point. *)
Definition reaches (L : R) (l : list (gnode * R)) : Prop := exists n t, In (n, t) l /\ L < t.
(** The sum over two lists. *)
Fixpoint sum_over (d len : list R) : R := match d, len with x :: d', y :: len' => part_len x y + sum_over d' len' | _, _ => 0 end.
