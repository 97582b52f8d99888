(** What a user expects of measurement surfaces. *)
From Coq Require Import ZArith List String Bool Reals.
From Verif Require Import Base RBase VecModel SurfModel.
Import ListNotations.
Open Scope R_scope.

(** A rotation matrix: the rows have length one and are orthogonal to each other. *)
Definition orthonormal (m : rot) : Prop :=
  vdot (row1 m) (row1 m) = 1 /\ vdot (row2 m) (row2 m) = 1 /\ vdot (row3 m) (row3 m) = 1 /\
  vdot (row1 m) (row2 m) = 0 /\ vdot (row1 m) (row3 m) = 0 /\ vdot (row2 m) (row3 m) = 0.

(** Distance of two points. *)
Definition vdist (a b : vec) : R := vr (vsub a b).

(** The point of the plane with coordinates (a,b) in a frame turned counterclockwise by alpha. *)
Definition turned (alpha a b : R) : R * R := (a * cos alpha - b * sin alpha, a * sin alpha + b * cos alpha).

(** The rectangle, as a set of points (u,v): centred at 0, side w along the first axis, l along the
    second, turned by alpha. *)
Definition in_rectangle (w l alpha u v : R) : Prop :=
  exists a b, - (w / 2) <= a <= w / 2 /\ - (l / 2) <= b <= l / 2 /\ (u, v) = turned alpha a b.

(** The trapezoid: the convex hull of its four corners, turned by alpha. *)
Definition in_trapezoid (bottom top h alpha u v : R) : Prop :=
  exists p q r s a b, 0 <= p /\ 0 <= q /\ 0 <= r /\ 0 <= s /\ p + q + r + s = 1 /\
    a = p * (- (bottom / 2)) + q * (bottom / 2) + r * (top / 2) + s * (- (top / 2)) /\
    b = p * (- (h / 2)) + q * (- (h / 2)) + r * (h / 2) + s * (h / 2) /\
    (u, v) = turned alpha a b.

(** ** The store: a history of fill attempts; calls that throw leave the store as the code leaves it. *)
Fixpoint fill_run (s : store) (h : list filler) : option store :=
  match h with
  | [] => Some s
  | f :: t => match FillStore s f with
              | SOk s' _ => fill_run s' t
              | SThrow s' _ => fill_run s' t
              | SUB => None
              end
  end.
(** No filler yields a null pointer. *)
Definition no_null (f : filler) : Prop := ~ In None (fl_surfaces f).
Definition id_of (p : sptr) : option Z := match p with Some (_, id) => Some id | None => None end.
(** The surface a list yields first for an ID. *)
Fixpoint first_for (l : list sptr) (id : Z) : option Z :=
  match l with
  | [] => None
  | Some (a, k) :: t => if Z.eqb k id then Some a else first_for t id
  | None :: t => first_for t id
  end.
(** The IDs of a list of surfaces are distinct. *)
Definition distinct (l : list sptr) : Prop := NoDup (map id_of l).
(** The store answers like a table. *)
Definition answers (s : store) (tab : Z -> option Z) : Prop :=
  forall id, match tab id with
             | Some a => GetMeasurementSurface s id = Ok a
             | None => exists e, GetMeasurementSurface s id = Throw e
             end.
(** The first table, completed by the second. *)
Definition both (t1 t2 : Z -> option Z) (id : Z) : option Z := match t1 id with Some a => Some a | None => t2 id end.
