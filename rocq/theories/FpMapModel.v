(** Model of MaterialMap (src/geartgeo/MaterialMap.cc) in double arithmetic: MatModel with every sum, difference,
    product, quotient and root rounded to the nearest double.  Numbers of steps are exact as doubles.
    Simplifications: overflow is left out; the point that belongs to three coordinates, which takes the platform's
    sine and cosine (lines 94-121), is a parameter [pos]; a result that would be NaN is [UB]. *)
From Coq Require Import ZArith List Bool Reals String.
From Flocq Require Import Core.
From Verif Require Import Base RBase VecModel NumModel MatModel FpModel.
Import ListNotations.
Open Scope R_scope.

Definition fmul (x y : R) : R := to_double (x * y).
Definition fsqrt (x : R) : R := to_double (sqrt x).
(** the constant 1e-5 *)
Definition fsmall : R := to_double (1 / 100000).

(** the checks of the constructor, MaterialMap.cc 16-48 *)
Definition fbad_args (x y z : axis) (coord : Z) : bool :=
  (Rltb (ax_max x) (ax_min x) || Rltb (ax_max y) (ax_min y) || Rltb (ax_max z) (ax_min z) ||
   (ax_n x <? 0)%Z || (ax_n y <? 0)%Z || (ax_n z <? 0)%Z ||
   if (coord =? CARTESIAN)%Z then false
   else if (coord =? CYLINDRICAL)%Z then
     Rltb (ax_min x) 0 || Rltb (ax_max x) 0 ||
     Rltb (ax_min y) 0 || Rltb two_pi (ax_min y) || Rltb (ax_max y) 0 || Rltb two_pi (ax_max y)
   else if (coord =? SPHERICAL)%Z then
     Rltb (ax_min x) 0 || Rltb (ax_max x) 0 ||
     Rltb (ax_min y) 0 || Rltb m_pi (ax_min y) || Rltb (ax_max y) 0 || Rltb m_pi (ax_max y) ||
     Rltb (ax_min z) 0 || Rltb two_pi (ax_min z) || Rltb (ax_max z) 0 || Rltb two_pi (ax_max z)
   else true)%bool.
(** MaterialMap.cc 70-81 *)
Definition fstep (a : axis) : R := if (ax_n a =? 0)%Z then 1 else fdiv (fsub (ax_max a) (ax_min a)) (IZR (ax_n a)).
(** calculateGridIndex, MaterialMap.cc 160-170 *)
Definition fgrid_index1 (a : axis) (x : R) : result Z :=
  if Reqb (fstep a) 0 then UB else to_int (fadd (fdiv (fsub x (ax_min a)) (fstep a)) (1 / 2)).
Definition foutside1 (a : axis) (x : R) : bool := (Rltb (fadd x fsmall) (ax_min a) || Rltb (ax_max a) (fsub x fsmall))%bool.
Definition fcalculateGridIndex (m : mmap) (x y z : R) : result (Z * Z * Z) :=
  if (foutside1 (mm_x m) x || foutside1 (mm_y m) y || foutside1 (mm_z m) z)%bool
  then Throw (EGear "Coordinate not found in MaterialMap!")
  else rbind (fgrid_index1 (mm_x m) x) (fun i =>
       rbind (fgrid_index1 (mm_y m) y) (fun j =>
       rbind (fgrid_index1 (mm_z m) z) (fun k => Ok (i, j, k)))).

(** for( v = min ; v <= max ; v += step ), MaterialMap.cc 89-93.  [None]: out of fuel. *)
Fixpoint ffor_loop {A} (fuel : nat) (v hi step : R) (body : R -> A -> option (result A)) (s : A) : option (result A) :=
  match fuel with
  | O => None
  | S f =>
      if Rleb v hi
      then match body v s with
           | Some (Ok s') => ffor_loop f (fadd v step) hi step body s'
           | r => r
           end
      else Some (Ok s)
  end.
Definition fover {A} (fuel : nat) (a : axis) := @ffor_loop A fuel (ax_min a) (ax_max a) (fstep a).
(** the body of the loops, MaterialMap.cc 94-134 *)
Definition ffill_one (nrad nint : vec -> result R) (pos : R -> R -> R -> vec) (x y z : R) (m : mmap) : result mmap :=
  rbind (budget nrad nint (pos x y z)) (fun v =>
  rbind (fcalculateGridIndex m x y z) (fun p =>
  match p with (i, j, k) => mm_set m i j k v end)).
(** the constructor, MaterialMap.cc 11-138 *)
Definition fnew_map (fuel : nat) (nrad nint : vec -> result R) (pos : Z -> R -> R -> R -> vec) (x y z : axis) (coord : Z) : option (result mmap) :=
  if fbad_args x y z coord then Some (Throw (EGear "MaterialMap constructor"))
  else fover fuel x (fun vx =>
       fover fuel y (fun vy =>
       fover fuel z (fun vz m => Some (ffill_one nrad nint (pos coord) vx vy vz m))))
       (mkMM x y z (fun _ _ _ => (0, 0))).

(** the grid points used for one coordinate, MaterialMap.cc 176-195.  std::fmod is exact: its result is a double. *)
Definition fused_points (a : axis) (x : R) : list R :=
  let p0 := fsub x (fmod (fsub x (ax_min a)) (fstep a)) in
  let p1 := fadd p0 (fstep a) in
  let count := ((if in_range1 a p0 then 1 else 0) + (if in_range1 a p1 then 1 else 0))%nat in
  firstn count [p0; p1].
(** the three nested loops, MaterialMap.cc 200-231; the breaks leave all of them *)
Definition fall_points (m : mmap) (x y z : R) : list (R * R * R) :=
  flat_map (fun px => flat_map (fun py => map (fun pz => (px, py, pz)) (fused_points (mm_z m) z)) (fused_points (mm_y m) y)) (fused_points (mm_x m) x).
Definition fdist (x y z px py pz : R) : R :=
  fsqrt (fadd (fadd (fmul (fsub x px) (fsub x px)) (fmul (fsub y py) (fsub y py))) (fmul (fsub z pz) (fsub z pz))).
(** (sumRadL, sumIntL, sumWeight) *)
Fixpoint finterp (m : mmap) (x y z : R) (pts : list (R * R * R)) (acc : R * R * R) : result (R * R * R) :=
  match pts with
  | [] => Ok acc
  | (px, py, pz) :: pts' =>
      let d := fdist x y z px py pz in
      rbind (fcalculateGridIndex m px py pz) (fun p =>
      match p with (i, j, k) =>
        rbind (mm_get m i j k) (fun v =>
        if Rltb (Rabs d) fsmall then Ok (fst v, snd v, 1)
        else match acc with (sr, si, sw) => finterp m x y z pts' (fadd sr (fdiv (fst v) d), fadd si (fdiv (snd v) d), fadd sw (fdiv 1 d)) end)
      end)
  end.
(** interpolateOnGrid, MaterialMap.cc 172-234 *)
Definition finterpolateOnGrid (m : mmap) (x y z : R) : result (R * R) :=
  rbind (finterp m x y z (fall_points m x y z) (0, 0, 0)) (fun a =>
  match a with (sr, si, sw) => if Reqb sw 0 then UB else Ok (fdiv sr sw, fdiv si sw) end).
(** MaterialMap.cc 140-158 *)
Definition fgetInteractionLength (m : mmap) (x y z : R) : result R :=
  rbind (fcalculateGridIndex m x y z) (fun _ => rmap snd (finterpolateOnGrid m x y z)).
Definition fgetRadiationLength (m : mmap) (x y z : R) : result R :=
  rbind (fcalculateGridIndex m x y z) (fun _ => rmap fst (finterpolateOnGrid m x y z)).
