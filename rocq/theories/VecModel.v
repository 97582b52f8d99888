(** Model of gear::Vector3D (include/gear/gearimpl/Vector3D.h).
    Simplification: doubles are real numbers; an operation whose floating-point result would be NaN
    (unit vector of the zero vector) has the outcome [None]. *)
From Coq Require Import ZArith Reals.
From Verif Require Import RBase Trig.
Open Scope R_scope.

(** Vector3D.h 188: _x, _y, _z *)
Record vec := mkVec { vx : R; vy : R; vz : R }.

(** Vector3D.h 24, 40-44 *)
Definition vzero : vec := mkVec 0 0 0.
(** Vector3D.h 246-252 *)
Definition vcylindrical (rho phi z : R) : vec := mkVec (rho * cos phi) (rho * sin phi) z.
(** Vector3D.h 258-264 *)
Definition vspherical (r phi theta : R) : vec :=
  let rst := r * sin theta in mkVec (rst * cos phi) (rst * sin phi) (r * cos theta).

(** Vector3D.h 75-82, the const operator[] *)
Definition vget (v : vec) (i : Z) : R :=
  match i with 0%Z => vx v | 1%Z => vy v | 2%Z => vz v | _ => 0 end.

(** Vector3D.h 84-92, the non-const operator[] used for an assignment or a read: out of range it
    refers to a function-static variable [dummy], shared by all vectors *)
Definition vset (v : vec) (dummy : R) (i : Z) (x : R) : vec * R :=
  match i with
  | 0%Z => (mkVec x (vy v) (vz v), dummy)
  | 1%Z => (mkVec (vx v) x (vz v), dummy)
  | 2%Z => (mkVec (vx v) (vy v) x, dummy)
  | _ => (v, x)
  end.
Definition vref (v : vec) (dummy : R) (i : Z) : R :=
  match i with 0%Z => vx v | 1%Z => vy v | 2%Z => vz v | _ => dummy end.

(** Vector3D.h 95-98 *)
Definition vphi (v : vec) : R := if (Reqb (vx v) 0 && Reqb (vy v) 0)%bool then 0 else atan2 (vy v) (vx v).
(** Vector3D.h 107-110 (rho: 101-104 returns trans()) *)
Definition vtrans (v : vec) : R := sqrt (vx v * vx v + vy v * vy v).
Definition vrho (v : vec) : R := vtrans v.
(** Vector3D.h 113-116 *)
Definition vtrans2 (v : vec) : R := vx v * vx v + vy v * vy v.
(** Vector3D.h 119-122 *)
Definition vr (v : vec) : R := sqrt (vx v * vx v + vy v * vy v + vz v * vz v).
(** Vector3D.h 126-129 *)
Definition vr2 (v : vec) : R := vx v * vx v + vy v * vy v + vz v * vz v.
(** Vector3D.h 132-135 *)
Definition vtheta (v : vec) : R :=
  if (Reqb (vx v) 0 && Reqb (vy v) 0 && Reqb (vz v) 0)%bool then 0 else atan2 (vrho v) (vz v).
(** Vector3D.h 138-140 *)
Definition vdot (a v : vec) : R := vx a * vx v + vy a * vy v + vz a * vz v.
(** Vector3D.h 143-148 *)
Definition vcross (a v : vec) : vec :=
  mkVec (vy a * vz v - vz a * vy v) (vz a * vx v - vx a * vz v) (vx a * vy v - vy a * vx v).
(** Vector3D.h 151-155; 0/0 is NaN *)
Definition vunit (v : vec) : option vec :=
  let n := vr v in if Reqb n 0 then None else Some (mkVec (vx v / n) (vy v / n) (vz v / n)).
(** Vector3D.h 206-209, 211-214, 225-228 *)
Definition vadd (a b : vec) : vec := mkVec (vx a + vx b) (vy a + vy b) (vz a + vz b).
Definition vsub (a b : vec) : vec := mkVec (vx a - vx b) (vy a - vy b) (vz a - vz b).
Definition vscale (s : R) (v : vec) : vec := mkVec (s * vx v) (s * vy v) (s * vz v).
(** Vector3D.h 216-223 *)
Definition veqb (a b : vec) : bool := (Reqb (vx a) (vx b) && Reqb (vy a) (vy b) && Reqb (vz a) (vz b))%bool.
