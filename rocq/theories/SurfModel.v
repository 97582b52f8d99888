(** Model of the measurement surfaces: src/gearsurf/CartesianCoordinateSystem.cc,
    BoundaryRectangle.cc, BoundaryTrapezoid.cc, MeasurementSurface.cc, MeasurementSurfaceStore.cc
    and their headers in include/gear/gearsurf.
    Simplifications: doubles are real numbers. CLHEP is taken by its documentation: a HepRotation is
    an orthonormal 3x3 matrix, inverse() its transpose, [R.rotateZ(a)] on the identity the rotation
    by a around z, [R * v] the matrix product, and Hep3Vector has components x, y, z. *)
From Coq Require Import ZArith List String Bool Reals.
From Verif Require Import Base RBase VecModel.
Import ListNotations.
Open Scope R_scope.

(** ** CLHEP *)
(** the rows of a 3x3 matrix *)
Record rot := mkRot { row1 : vec; row2 : vec; row3 : vec }.
Definition rot_apply (m : rot) (v : vec) : vec := mkVec (vdot (row1 m) v) (vdot (row2 m) v) (vdot (row3 m) v).
Definition rot_inverse (m : rot) : rot :=
  mkRot (mkVec (vx (row1 m)) (vx (row2 m)) (vx (row3 m)))
        (mkVec (vy (row1 m)) (vy (row2 m)) (vy (row3 m)))
        (mkVec (vz (row1 m)) (vz (row2 m)) (vz (row3 m))).
Definition rotZ (a : R) : rot :=
  mkRot (mkVec (cos a) (- sin a) 0) (mkVec (sin a) (cos a) 0) (mkVec 0 0 1).

(** ** CartesianCoordinateSystem.h 42-49 *)
Record csys := mkCsys { cs_T : vec; cs_R : rot; cs_Rinv : rot }.
(** CartesianCoordinateSystem.h 16-20 *)
Definition new_csys (T : vec) (m : rot) : csys := mkCsys T m (rot_inverse m).
(** CartesianCoordinateSystem.cc 5-13 *)
Definition getLocalPoint (c : csys) (g : vec) : vec := rot_apply (cs_Rinv c) (vsub g (cs_T c)).
(** CartesianCoordinateSystem.cc 15-22 *)
Definition getGlobalPoint (c : csys) (l : vec) : vec := vadd (cs_T c) (rot_apply (cs_R c) l).
(** CartesianCoordinateSystem.h 29 *)
Definition getOrigin (c : csys) : vec := cs_T c.
(** CartesianCoordinateSystem.h 36-38 *)
Definition getLocalXAxis (c : csys) : vec := rot_apply (cs_R c) (mkVec 1 0 0).
Definition getLocalYAxis (c : csys) : vec := rot_apply (cs_R c) (mkVec 0 1 0).
Definition getLocalZAxis (c : csys) : vec := rot_apply (cs_R c) (mkVec 0 0 1).

(** ** Boundaries *)
Inductive boundary :=
| Rectangle (width length deltaW alpha : R)                  (* BoundaryRectangle.h 27 *)
| Trapezoid (baseBottom baseTop height deltaW alpha : R).    (* BoundaryTrapezoid.h 31-32 *)

(** BoundaryRectangle.cc 8-29 *)
Definition rect_isInBoundary (width length deltaW alpha : R) (local : vec) : bool :=
  if Rltb deltaW (Rabs (vz local)) then false                              (* 10 *)
  else let local := rot_apply (rotZ (- alpha)) local in                    (* 17-19 *)
       if Rltb (width / 2) (Rabs (vx local)) then false                    (* 23 *)
       else if Rltb (length / 2) (Rabs (vy local)) then false              (* 24 *)
       else true.

(** BoundaryTrapezoid.cc 7-27. For height 0 only y = 0 reaches line 21, where the width becomes
    0/0 = NaN; the comparison in line 22 is then false. *)
Definition trap_isInBoundary (baseBottom baseTop height deltaW alpha : R) (local : vec) : bool :=
  if Rltb deltaW (Rabs (vz local)) then false                              (* 9 *)
  else let local := rot_apply (rotZ (- alpha)) local in                    (* 14-16 *)
       if Rltb (height / 2) (Rabs (vy local)) then false                   (* 18 *)
       else if Reqb height 0 then true                                     (* NaN in 21-22 *)
       else let width := (baseBottom + baseTop) / 2 + vy local * (baseTop - baseBottom) / height in  (* 21 *)
            if Rltb (width / 2) (Rabs (vx local)) then false else true.    (* 22 *)

Definition isInBoundary (b : boundary) (local : vec) : bool :=
  match b with
  | Rectangle w l d a => rect_isInBoundary w l d a local
  | Trapezoid bb bt h d a => trap_isInBoundary bb bt h d a local
  end.

(** ** MeasurementSurface.h 34-37; null pointers are [None] *)
Record surface := mkSurface { s_ID : Z; s_csys : option csys; s_boundary : option boundary }.
(** MeasurementSurface.cc 16-26 *)
Definition isLocalInBoundary (s : surface) (local : vec) : bool :=
  match s_boundary s with None => true | Some b => isInBoundary b local end.
(** MeasurementSurface.cc 30-45; a null coordinate system is dereferenced only if there is a
    boundary *)
Definition isGlobalInBoundary (s : surface) (global : vec) : result bool :=
  match s_boundary s with
  | None => Ok true
  | Some _ => match s_csys s with
              | None => UB
              | Some c => Ok (isLocalInBoundary s (getLocalPoint c global))
              end
  end.

(** ** MeasurementSurfaceStore
    The surfaces are addresses with an ID; the map is an association list (keys are unique; the
    order of std::map is not observable here). *)
Record store := mkStore { st_map : list (Z * Z); st_filled : bool; st_filler : string }.
(** MeasurementSurfaceStore.h 25 *)
Definition new_store : store := mkStore [] false "".
(** MeasurementSurfaceStore.cc 20-28 *)
Definition copy_store (s : store) : store := mkStore (st_map s) (st_filled s) (st_filler s).

Fixpoint find_id (m : list (Z * Z)) (id : Z) : option Z :=
  match m with [] => None | (k, a) :: t => if Z.eqb k id then Some a else find_id t id end.

(** MeasurementSurfaceStore.cc 44-60 *)
Definition GetMeasurementSurface (s : store) (id : Z) : result Z :=
  match find_id (st_map s) id with
  | None => Throw (EGear "GetMeasurementSurface: not in the map")
  | Some a => Ok a
  end.

(** a pointer to a surface: its address and ID; [None] is null *)
Definition sptr := option (Z * Z).

(** MeasurementSurfaceStore.cc 63-81 (private; called by FillStore only) *)
Definition addMeasurementSurface (s : store) (ms : sptr) : sres store unit :=
  match ms with
  | None => SUB                                                            (* 65: null dereferenced *)
  | Some (a, id) =>
      match find_id (st_map s) id with
      | Some _ => SThrow s (EGear "addMeasurementSurface: already in the map")
      | None => SOk (mkStore (st_map s ++ [(id, a)]) (st_filled s) (st_filler s)) tt
      end
  end.

(** MeasurementSurfaceStore.cc 114-116 *)
Fixpoint add_all (s : store) (l : list sptr) : sres store unit :=
  match l with
  | [] => SOk s tt
  | ms :: t => match addMeasurementSurface s ms with
               | SOk s' _ => add_all s' t
               | SThrow s' e => SThrow s' e
               | SUB => SUB
               end
  end.

(** A MeasurementSurfaceStoreFiller: its name and the surfaces it yields. *)
Record filler := mkFiller { fl_name : string; fl_surfaces : list sptr }.

(** MeasurementSurfaceStore.cc 95-122 *)
Definition FillStore (s : store) (f : filler) : sres store unit :=
  if st_filled s then SThrow s (EGear ("FillStore: Store already filled with MeasurementSurfaceStoreFiller " ++ st_filler s))
  else
    let s1 := mkStore (st_map s) (st_filled s) (fl_name f) in              (* 108 *)
    match add_all s1 (fl_surfaces f) with                                  (* 114-116 *)
    | SOk s2 _ => SOk (mkStore (st_map s2) true (st_filler s2)) tt         (* 118 *)
    | SThrow s2 e => SThrow s2 e
    | SUB => SUB
    end.

(** MeasurementSurfaceStore.h 41 *)
Definition isFilled (s : store) : bool := st_filled s.
(** MeasurementSurfaceStore.cc 84-93 *)
Definition getFillerName (s : store) : result string :=
  if negb (st_filled s) then Throw (EGear "MeasurementSurfaceStore::getFillerName(): Store has not yet been filled!")
  else Ok (st_filler s).

(** MeasurementSurfaceStore.cc 31-42: which surfaces the destructor deletes, in order; a surface is
    deleted only if it IS already in deleted_objects *)
Fixpoint destroy_loop (m : list (Z * Z)) (deleted : list Z) : list Z :=
  match m with
  | [] => []
  | (_, a) :: t =>
      if existsb (Z.eqb a) deleted then a :: destroy_loop t (deleted ++ [a]) else destroy_loop t deleted
  end.
Definition store_deletes (s : store) : list Z := destroy_loop (st_map s) [].
