(** What C74 says: a material map built in double arithmetic. *)
From Coq Require Import ZArith List Bool Reals.
From Verif Require Import Base RBase VecModel NumSpec MatModel MatSpec FpModel FpMapModel.
Import ListNotations.
Open Scope R_scope.

(** Ranges for which the rounding errors stay small against a part: the ends are doubles; n*n times the
    size of the ends is less than 2^46 times the length of the range.  Without steps the range is at most one half long. *)
Definition grid_ok (a : axis) : Prop :=
  is_double (ax_min a) /\ is_double (ax_max a) /\ ax_min a <= ax_max a /\ (0 <= ax_n a <= 1073741824)%Z /\
  ((0 < ax_n a)%Z -> IZR (ax_n a) * IZR (ax_n a) * (Rabs (ax_min a) + Rabs (ax_max a) + 1) <= (ax_max a - ax_min a) * 70368744177664) /\
  (ax_n a = 0%Z -> ax_max a <= ax_min a + 1 / 2 /\ Rabs (ax_min a) <= 1125899906842624).
(** The points of one coordinate that are filled in: one near each of the n+1 end points of the parts, and inside
    the range, except that the last one may be missing. *)
Definition planes (a : axis) (xs : list R) : Prop :=
  (Z.of_nat (length xs) = ax_n a \/ Z.of_nat (length xs) = ax_n a + 1)%Z /\ xs <> [] /\
  forall i x, nth_error xs i = Some x -> is_double x /\ ax_min a <= x <= ax_max a /\
    Rabs (x - node a (Z.of_nat i)) <= (node a 1 - node a 0) / 16.
(** The map holds the material at these points, and zeros where a last plane is missing. *)
Definition plane_at (xs : list R) (i : Z) : option R := nth_error xs (Z.to_nat i).
Definition holds_planes (nrad nint : vec -> result R) (at_ : R -> R -> R -> vec) (xs ys zs : list R) (m : mmap) : Prop :=
  forall i j k, in_axis (mm_x m) i -> in_axis (mm_y m) j -> in_axis (mm_z m) k ->
  match plane_at xs i, plane_at ys j, plane_at zs k with
  | Some x, Some y, Some z => material nrad nint (at_ x y z) (mm_val m i j k)
  | _, _, _ => mm_val m i j k = (0, 0)
  end.
(** The domains of the coordinates, with the doubles next to pi and twice pi. *)
Definition fdomain_ok (x y z : axis) (coord : Z) : Prop :=
  coord = CARTESIAN \/
  coord = CYLINDRICAL /\ 0 <= ax_min x /\ 0 <= ax_min y /\ ax_max y <= two_pi \/
  coord = SPHERICAL /\ 0 <= ax_min x /\ 0 <= ax_min y /\ ax_max y <= m_pi /\ 0 <= ax_min z /\ ax_max z <= two_pi.
(** The ends and the parts are whole multiples of one power of two, and not too large. *)
Definition exact_grid (a : axis) : Prop :=
  exists A q e : Z, ax_min a = IZR A * powerRZ 2 e /\ ax_max a = IZR (A + ax_n a * q) * powerRZ 2 e /\
  (0 < q)%Z /\ (0 < ax_n a <= 1073741824)%Z /\ (Z.abs A < 2 ^ 51)%Z /\ (Z.abs (A + ax_n a * q) < 2 ^ 51)%Z /\ (-1000 <= e)%Z.
(** A length that is zero or not absurdly small. *)
Definition usual (v : R) : Prop := v = 0 \/ powerRZ 2 (-800) <= v.
(** A coordinate of a sensible size. *)
Definition moderate (x : R) : Prop := Rabs x <= powerRZ 2 100.
(** What rounding may add or take away when reading: one part in 2^47. *)
Definition reading_error : R := powerRZ 2 (-47).
(** Ranges of which every point can be read: ends up to 10^9, at least two parts, or one point only. *)
Definition readable (a : axis) : Prop :=
  grid_ok a /\ Rabs (ax_min a) <= 1000000000 /\ Rabs (ax_max a) <= 1000000000 /\ ((2 <= ax_n a)%Z \/ ax_n a = 0%Z /\ ax_min a = ax_max a).
