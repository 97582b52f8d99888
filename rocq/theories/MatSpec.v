(** Specification vocabulary for material maps. *)
From Coq Require Import ZArith List Bool Reals.
From Verif Require Import Base RBase VecModel MatModel.
Import ListNotations.
Open Scope R_scope.

(** n steps cut the range into n equal parts; these are the n+1 end points (with no steps only the
    lower end). *)
Definition node (a : axis) (k : Z) : R :=
  if (ax_n a =? 0)%Z then ax_min a + IZR k else ax_min a + IZR k * ((ax_max a - ax_min a) / IZR (ax_n a)).
(** Ranges the code can handle: the parts are longer than 0.00002, a range without steps is shorter
    than 1. *)
Definition axis_ok (a : axis) : Prop :=
  (0 <= ax_n a <= 2147483646)%Z /\ ax_min a <= ax_max a /\
  (ax_n a = 0%Z -> ax_max a + 1 / 100000 < ax_min a + 1) /\
  ((0 < ax_n a)%Z -> 2 / 100000 < (ax_max a - ax_min a) / IZR (ax_n a)).
(** The coordinate system is one of the three, and the ranges are inside its domain. *)
Definition domain_ok (x y z : axis) (coord : Z) : Prop :=
  coord = CARTESIAN \/
  coord = CYLINDRICAL /\ 0 <= ax_min x /\ 0 <= ax_min y /\ ax_max y <= 2 * PI \/
  coord = SPHERICAL /\ 0 <= ax_min x /\ 0 <= ax_min y /\ ax_max y <= PI /\ 0 <= ax_min z /\ ax_max z <= 2 * PI.
(** The material between the origin and a point. *)
Definition material (nrad nint : vec -> result R) (p : vec) (v : R * R) : Prop :=
  p = vzero /\ v = (0, 0) \/ p <> vzero /\ nrad p = Ok (fst v) /\ nint p = Ok (snd v).
Definition in_axis (a : axis) (k : Z) : Prop := (0 <= k <= ax_n a)%Z.
(** Where the point with these coordinates is: cartesian; radius, azimuth and height; radius, polar angle and
    azimuth. *)
Definition position (coord : Z) (x y z : R) : vec :=
  match coord with
  | 0%Z => mkVec x y z
  | 1%Z => mkVec (x * cos y) (x * sin y) z
  | _ => mkVec (x * sin y * cos z) (x * sin y * sin z) (x * cos y)
  end.
(** The map holds the material at its grid points. *)
Definition holds_material (nrad nint : vec -> result R) (coord : Z) (m : mmap) : Prop :=
  forall i j k, in_axis (mm_x m) i -> in_axis (mm_y m) j -> in_axis (mm_z m) k ->
  material nrad nint (position coord (node (mm_x m) i) (node (mm_y m) j) (node (mm_z m) k)) (mm_val m i j k).
(** A coordinate within 0.00001 of the range. *)
Definition in_reach (a : axis) (x : R) : Prop := ax_min a - 1 / 100000 <= x <= ax_max a + 1 / 100000.
(** A grid point next to a coordinate: not more than one part away. *)
Definition next_to (a : axis) (x : R) (k : Z) : Prop := in_axis a k /\ Rabs (x - node a k) <= node a 1 - node a 0 + 1 / 100000.
Definition dist3 (x y z x' y' z' : R) : R := sqrt ((x - x') * (x - x') + (y - y') * (y - y') + (z - z') * (z - z')).
(** Two requests for the same grid, in whichever coordinate systems. *)
Definition same_grid (r r' : mreq) : Prop := rq_x r = rq_x r' /\ rq_y r = rq_y r' /\ rq_z r = rq_z r'.
(** The factory after a list of requests. *)
Definition requests (lhs_first : bool) (fails : mreq -> bool) (f : factory) (rs : list mreq) : factory :=
  fold_left (fun f r => snd (createMaterialMap lhs_first fails f r)) rs f.
