(** Model of MaterialMap (src/geartgeo/MaterialMap.cc, include/gear/geartgeo/MaterialMap.h) and
    MaterialMapFactory (src/geartgeo/MaterialMapFactory.cc).
    The material budget itself, GearMgr::getDistanceProperties(), is left open: two functions give the
    number of radiation and interaction lengths from the origin to a point, or an exception.
    Simplifications: doubles are real numbers (so x += step visits the grid points exactly); the memory
    for the map is always found; a result that would be NaN is [UB] (marked below). *)
From Coq Require Import ZArith List Bool Reals String.
From Flocq Require Import Core.
From Verif Require Import Base RBase VecModel.
Import ListNotations.
Open Scope R_scope.

(** min, max and number of steps for one coordinate, MaterialMap.h 55-60 *)
Record axis := mkAx { ax_min : R; ax_max : R; ax_n : Z }.
(** MaterialMap.cc 70-81 *)
Definition ax_step (a : axis) : R := if (ax_n a =? 0)%Z then 1 else (ax_max a - ax_min a) / IZR (ax_n a).
(** the data members, MaterialMap.h 55-63; the vector of vectors of vectors, sized at MaterialMap.cc 62-68,
    is a function here and every access checks its sizes *)
Record mmap := mkMM { mm_x : axis; mm_y : axis; mm_z : axis; mm_val : Z -> Z -> Z -> R * R }.
Definition mm_inb (m : mmap) (i j k : Z) : bool :=
  ((0 <=? i) && (i <=? ax_n (mm_x m)) && (0 <=? j) && (j <=? ax_n (mm_y m)) && (0 <=? k) && (k <=? ax_n (mm_z m)))%Z%bool.
Definition mm_get (m : mmap) (i j k : Z) : result (R * R) := if mm_inb m i j k then Ok (mm_val m i j k) else UB.
Definition mm_set (m : mmap) (i j k : Z) (v : R * R) : result mmap :=
  if mm_inb m i j k
  then Ok (mkMM (mm_x m) (mm_y m) (mm_z m)
             (fun i' j' k' => if ((i' =? i) && (j' =? j) && (k' =? k))%Z%bool then v else mm_val m i' j' k'))
  else UB.

(** coord, MaterialMap.h 46-50 *)
Definition CARTESIAN : Z := 0. Definition CYLINDRICAL : Z := 1. Definition SPHERICAL : Z := 2.
(** the checks of the constructor, MaterialMap.cc 16-48; each of them throws gear::Exception *)
Definition bad_args (x y z : axis) (coord : Z) : bool :=
  (Rltb (ax_max x) (ax_min x) || Rltb (ax_max y) (ax_min y) || Rltb (ax_max z) (ax_min z) ||
   (ax_n x <? 0)%Z || (ax_n y <? 0)%Z || (ax_n z <? 0)%Z ||
   if (coord =? CARTESIAN)%Z then false
   else if (coord =? CYLINDRICAL)%Z then
     Rltb (ax_min x) 0 || Rltb (ax_max x) 0 ||
     Rltb (ax_min y) 0 || Rltb (2 * PI) (ax_min y) || Rltb (ax_max y) 0 || Rltb (2 * PI) (ax_max y)
   else if (coord =? SPHERICAL)%Z then
     Rltb (ax_min x) 0 || Rltb (ax_max x) 0 ||
     Rltb (ax_min y) 0 || Rltb PI (ax_min y) || Rltb (ax_max y) 0 || Rltb PI (ax_max y) ||
     Rltb (ax_min z) 0 || Rltb (2 * PI) (ax_min z) || Rltb (ax_max z) 0 || Rltb (2 * PI) (ax_max z)
   else true)%bool.
(** MaterialMap.cc 94-121; the default case is unreachable after the checks *)
Definition to_cartesian (coord : Z) (x y z : R) : vec :=
  if (coord =? CARTESIAN)%Z then mkVec x y z
  else if (coord =? CYLINDRICAL)%Z then mkVec (x * cos y) (x * sin y) z
  else mkVec (x * sin y * cos z) (x * sin y * sin z) (x * cos y).

(** calculateGridIndex, MaterialMap.cc 160-170.  A step of 0 makes the quotient NaN or infinite, whose
    conversion to int is undefined. *)
Definition grid_index1 (a : axis) (x : R) : result Z :=
  if Reqb (ax_step a) 0 then UB else to_int ((x - ax_min a) / ax_step a + 1 / 2).
Definition outside1 (a : axis) (x : R) : bool := (Rltb (x + 1 / 100000) (ax_min a) || Rltb (ax_max a) (x - 1 / 100000))%bool.
Definition calculateGridIndex (m : mmap) (x y z : R) : result (Z * Z * Z) :=
  if (outside1 (mm_x m) x || outside1 (mm_y m) y || outside1 (mm_z m) z)%bool
  then Throw (EGear "Coordinate not found in MaterialMap!")
  else rbind (grid_index1 (mm_x m) x) (fun i =>
       rbind (grid_index1 (mm_y m) y) (fun j =>
       rbind (grid_index1 (mm_z m) z) (fun k => Ok (i, j, k)))).

(** for( v = min ; v <= max ; v += step ), MaterialMap.cc 89-93.  [None]: out of fuel. *)
Fixpoint for_loop {A} (fuel : nat) (v hi step : R) (body : R -> A -> option (result A)) (s : A) : option (result A) :=
  match fuel with
  | O => None
  | S f =>
      if Rleb v hi
      then match body v s with
           | Some (Ok s') => for_loop f (v + step) hi step body s'
           | r => r
           end
      else Some (Ok s)
  end.
Definition over {A} (fuel : nat) (a : axis) := @for_loop A fuel (ax_min a) (ax_max a) (ax_step a).

(** [nrad], [nint]: GearDistanceProperties::getNRadlen and getNIntlen from the origin *)
Definition budget (nrad nint : vec -> result R) (p : vec) : result (R * R) :=
  if veqb p vzero then Ok (0, 0)                                                  (* 122-126 *)
  else rbind (nrad p) (fun r => rbind (nint p) (fun i => Ok (r, i))).             (* 129-130 *)
(** the body of the loops, MaterialMap.cc 94-134 *)
Definition fill_one (nrad nint : vec -> result R) (coord : Z) (x y z : R) (m : mmap) : result mmap :=
  rbind (budget nrad nint (to_cartesian coord x y z)) (fun v =>
  rbind (calculateGridIndex m x y z) (fun p =>
  match p with (i, j, k) => mm_set m i j k v end)).
(** the constructor, MaterialMap.cc 11-138 *)
Definition new_map (fuel : nat) (nrad nint : vec -> result R) (x y z : axis) (coord : Z) : option (result mmap) :=
  if bad_args x y z coord then Some (Throw (EGear "MaterialMap constructor"))
  else over fuel x (fun vx =>
       over fuel y (fun vy =>
       over fuel z (fun vz m => Some (fill_one nrad nint coord vx vy vz m))))
       (mkMM x y z (fun _ _ _ => (0, 0))).

(** std::fmod for a non-zero second argument *)
Definition fmod (a b : R) : R := a - IZR (Ztrunc (a / b)) * b.
(** the grid points used for one coordinate, MaterialMap.cc 176-195: the first xcount of px[0], px[1] *)
Definition in_range1 (a : axis) (p : R) : bool := (Rleb (ax_min a) p && Rleb p (ax_max a))%bool.
Definition used_points (a : axis) (x : R) : list R :=
  let p0 := x - fmod (x - ax_min a) (ax_step a) in
  let p1 := p0 + ax_step a in
  let count := ((if in_range1 a p0 then 1 else 0) + (if in_range1 a p1 then 1 else 0))%nat in
  firstn count [p0; p1].
(** the three nested loops, MaterialMap.cc 200-231; the breaks leave all of them *)
Definition all_points (m : mmap) (x y z : R) : list (R * R * R) :=
  flat_map (fun px => flat_map (fun py => map (fun pz => (px, py, pz)) (used_points (mm_z m) z)) (used_points (mm_y m) y)) (used_points (mm_x m) x).
(** (sumRadL, sumIntL, sumWeight) *)
Fixpoint interp (m : mmap) (x y z : R) (pts : list (R * R * R)) (acc : R * R * R) : result (R * R * R) :=
  match pts with
  | [] => Ok acc
  | (px, py, pz) :: pts' =>
      let d := sqrt ((x - px) * (x - px) + (y - py) * (y - py) + (z - pz) * (z - pz)) in
      rbind (calculateGridIndex m px py pz) (fun p =>
      match p with (i, j, k) =>
        rbind (mm_get m i j k) (fun v =>
        if Rltb (Rabs d) (1 / 100000) then Ok (fst v, snd v, 1)
        else match acc with (sr, si, sw) => interp m x y z pts' (sr + fst v / d, si + snd v / d, sw + 1 / d) end)
      end)
  end.
(** interpolateOnGrid, MaterialMap.cc 172-234; with no grid point in range the result is NaN *)
Definition interpolateOnGrid (m : mmap) (x y z : R) : result (R * R) :=
  rbind (interp m x y z (all_points m x y z) (0, 0, 0)) (fun a =>
  match a with (sr, si, sw) => if Reqb sw 0 then UB else Ok (sr / sw, si / sw) end).
(** MaterialMap.cc 140-158 *)
Definition getInteractionLength (m : mmap) (x y z : R) : result R :=
  rbind (calculateGridIndex m x y z) (fun _ => rmap snd (interpolateOnGrid m x y z)).
Definition getRadiationLength (m : mmap) (x y z : R) : result R :=
  rbind (calculateGridIndex m x y z) (fun _ => rmap fst (interpolateOnGrid m x y z)).

(** ** MaterialMapFactory *)
(** What createMaterialMap is asked for. *)
Record mreq := mkReq { rq_x : axis; rq_y : axis; rq_z : axis; rq_coord : Z }.
(** gridV, MaterialMapFactory.cc 19-21: nine doubles *)
Definition grid_key (r : mreq) : list R :=
  [ax_min (rq_x r); ax_max (rq_x r); IZR (ax_n (rq_x r)); ax_min (rq_y r); ax_max (rq_y r); IZR (ax_n (rq_y r));
   ax_min (rq_z r); ax_max (rq_z r); IZR (ax_n (rq_z r))].
Fixpoint eq_keys (a b : list R) : bool :=
  match a, b with
  | [], [] => true
  | x :: a', y :: b' => (Reqb x y && eq_keys a' b')%bool
  | _, _ => false
  end.
(** _managerMap: keys and pointers.  A pointer is 0 (null) or the number of an object; [f_objs] says what
    each object was made for. *)
Record factory := mkFac { f_map : list (list R * Z); f_next : Z; f_objs : list (Z * mreq) }.
Definition new_factory : factory := mkFac [] 1 [].
Fixpoint key_find (l : list (list R * Z)) (k : list R) : option Z :=
  match l with
  | [] => None
  | (k', p) :: l' => if eq_keys k' k then Some p else key_find l' k
  end.
(** createMaterialMap, MaterialMapFactory.cc 14-28.  [fails]: does the constructor of the map throw?
    [lhs_first]: is _managerMap[gridV] evaluated before the new expression (which C++ leaves open before
    C++17, and the build does not ask for C++17)? *)
Definition createMaterialMap (lhs_first : bool) (fails : mreq -> bool) (f : factory) (r : mreq) : result Z * factory :=
  match key_find (f_map f) (grid_key r) with
  | Some p => (Ok p, f)
  | None =>
      if fails r
      then (Throw (EGear "MaterialMap constructor"),
            if lhs_first then mkFac ((grid_key r, 0%Z) :: f_map f) (f_next f) (f_objs f) else f)
      else (Ok (f_next f),
            mkFac ((grid_key r, f_next f) :: f_map f) (f_next f + 1) ((f_next f, r) :: f_objs f))
  end.
