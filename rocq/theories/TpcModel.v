(** Model of gear::TPCParametersImpl (src/gearimpl/TPCParametersImpl.cc,
    include/gear/gearimpl/TPCParametersImpl.h) and gear::GlobalPadIndex
    (include/gear/gearimpl/GlobalPadIndex.h, src/gearimpl/GlobalPadIndex.cc).
    Modules are objects on a heap; the TPC holds their addresses.  Doubles are reals.  Not modelled:
    the named parameters (ParamsModel), the destructor (MemModel). *)
From Coq Require Import ZArith List String Bool Reals.
From Verif Require Import Base RBase TpcModuleModel.
Import ListNotations.
Open Scope R_scope.

(** the live modules: address to object *)
Definition heap := Z -> module.
Definition heap_set (h : heap) (a : Z) (m : module) : heap := fun b => if (b =? a)%Z then m else h b.

(** TPCParametersImpl.h 175-211 *)
Record tpc := mkT {
  t_mods : list Z; t_pos : list Z; t_neg : list Z; t_drift : R; t_type : Z; t_cathode : R;
  t_map : list (Z * Z); t_ext : ext4; t_vel : R }.

(** constructor, TPCParametersImpl.cc 14-34 *)
Definition new_tpc (drift : R) (type : Z) : tpc :=
  let dflt := (Reqb drift (-1) || (type =? -1)%Z)%bool in
  mkT [] [] [] (if dflt then 0 else drift) (if dflt then POLAR else type) 0 [] (mkE 0 0 0 0) 0.

(** std::map<int,int>::find on _moduleIDMap; the order of the map is never observed *)
Fixpoint id_find (m : list (Z * Z)) (id : Z) : option Z :=
  match m with [] => None | (k, v) :: t => if (k =? id)%Z then Some v else id_find t id end.

(** getModule, TPCParametersImpl.cc 116-129: the address of the module *)
Definition getModule (t : tpc) (id : Z) : result Z :=
  match id_find (t_map t) id with
  | None => Throw (EGear "TPCParameters::getModule: No module with ID defined in the gear file!")
  | Some i => sub (t_mods t) i
  end.
(** getNModules 133-135, getModules 380-382, getMaxDriftLength 179-181, getCoordinateType 309-311,
    getDriftVelocity 421-429 *)
Definition getNModules (t : tpc) : Z := Z.of_nat (List.length (t_mods t)).
Definition getModules (t : tpc) : list Z := t_mods t.
Definition getMaxDriftLength (t : tpc) : R := t_drift t.
Definition getCoordinateType (t : tpc) : Z := t_type t.
Definition getDriftVelocity (t : tpc) : R := t_vel t.

(** getNearestModule on a vector, TPCParametersImpl.cc 139-159.  The loop starts at begin() again,
    which compares the first module with itself. *)
Fixpoint near_scan (h : heap) (c0 c1 : R) (v : list Z) (best : Z) (d : R) : result Z :=
  match v with
  | [] => Ok best
  | a :: t => rbind (getDistanceToModule (h a) c0 c1) (fun x =>
              if Rltb x d then near_scan h c0 c1 t a x else near_scan h c0 c1 t best d)
  end.
Definition nearest_in (h : heap) (c0 c1 : R) (v : list Z) : result Z :=
  match v with
  | [] => Throw (EGear "TPCParameters::GetNearsestModule: No Modules are defined, Cannot find Nearest")
  | a :: _ => rbind (getDistanceToModule (h a) c0 c1) (fun d => near_scan h c0 c1 v a d)
  end.
(** 162-165, 168-175 *)
Definition getNearestModule (h : heap) (t : tpc) (c0 c1 : R) : result Z := nearest_in h c0 c1 (t_mods t).
Definition half (t : tpc) (z : R) : list Z := if Rleb z (t_cathode t) then t_neg t else t_pos t.
Definition getNearestModule3 (h : heap) (t : tpc) (c0 c1 z : R) : result Z := nearest_in h c0 c1 (half t z).

(** isInsideModule, TPCParametersImpl.cc 187-210 ([||] does not evaluate its right side if the left
    is true) *)
Fixpoint inside_in (h : heap) (c0 c1 : R) (v : list Z) : result bool :=
  match v with
  | [] => Ok false
  | a :: t => rbind (TpcModuleModel.isInsideModule (h a) c0 c1) (fun b =>
              if b then Ok true else inside_in h c0 c1 t)
  end.
Definition isInsideModule (h : heap) (t : tpc) (c0 c1 : R) : result bool := inside_in h c0 c1 (t_mods t).
Definition isInsideModule3 (h : heap) (t : tpc) (c0 c1 z : R) : result bool := inside_in h c0 c1 (half t z).

(** isInsidePad, TPCParametersImpl.cc 215-238 *)
Fixpoint inside_pad_in (fuel : nat) (h : heap) (c0 c1 : R) (v : list Z) : option (result bool) :=
  match v with
  | [] => Some (Ok false)
  | a :: t => obind (module_isInsideAnyPad fuel (h a) c0 c1) (fun b =>
              if b then Some (Ok true) else inside_pad_in fuel h c0 c1 t)
  end.
Definition isInsidePad (fuel : nat) (h : heap) (t : tpc) (c0 c1 : R) := inside_pad_in fuel h c0 c1 (t_mods t).
Definition isInsidePad3 (fuel : nat) (h : heap) (t : tpc) (c0 c1 z : R) := inside_pad_in fuel h c0 c1 (half t z).

(** GlobalPadIndex.h 16-17: (padIndex, moduleID) *)
Record gpi := mkG { g_pad : Z; g_mod : Z }.
(** GlobalPadIndex.h 26-36 *)
Definition gpi_lt (a b : gpi) : bool :=
  if (g_mod a =? g_mod b)%Z then (g_pad a <? g_pad b)%Z else (g_mod a <? g_mod b)%Z.
(** GlobalPadIndex.h 39-42 *)
Definition gpi_eq (a b : gpi) : bool := ((g_mod a =? g_mod b)%Z && (g_pad a =? g_pad b)%Z)%bool.

(** getNearestPad on a vector, TPCParametersImpl.cc 257-294; with one module no distance is computed *)
Definition pad_and_distance (fuel : nat) (h : heap) (c0 c1 : R) (a : Z) : option (result (gpi * R)) :=
  obind (module_getNearestPad fuel (h a) c0 c1) (fun p =>
  Some (rmap (fun d => (mkG p (getModuleID (h a)), d)) (module_getDistanceToPad (h a) c0 c1 p))).
Fixpoint pad_scan (fuel : nat) (h : heap) (c0 c1 : R) (v : list Z) (best : gpi) (d : R) : option (result gpi) :=
  match v with
  | [] => Some (Ok best)
  | a :: t => obind (pad_and_distance fuel h c0 c1 a) (fun x =>
              if Rltb (snd x) d then pad_scan fuel h c0 c1 t (fst x) (snd x)
              else pad_scan fuel h c0 c1 t best d)
  end.
Definition nearest_pad_in (fuel : nat) (h : heap) (c0 c1 : R) (v : list Z) : option (result gpi) :=
  match v with
  | [] => Some (Throw (EGear "TPCParametersImpl::getNearestPad: No Modules are defined, Cannot find Nearest"))
  | [a] => obind (module_getNearestPad fuel (h a) c0 c1) (fun p => Some (Ok (mkG p (getModuleID (h a)))))
  | a :: t => obind (pad_and_distance fuel h c0 c1 a) (fun x => pad_scan fuel h c0 c1 t (fst x) (snd x))
  end.
Definition getNearestPad (fuel : nat) (h : heap) (t : tpc) (c0 c1 : R) := nearest_pad_in fuel h c0 c1 (t_mods t).
Definition getNearestPad3 (fuel : nat) (h : heap) (t : tpc) (c0 c1 z : R) := nearest_pad_in fuel h c0 c1 (half t z).

(** getPlaneExtent, TPCParametersImpl.cc 299-305 *)
Definition getPlaneExtent (t : tpc) : result ext4 :=
  match t_mods t with
  | [] => Throw (EGear "TPCParametersImpl::getPlaneExtent: No Modules are defined, Bad User")
  | _ => Ok (t_ext t)
  end.

(** setCathodePosition, TPCParametersImpl.cc 505-539 *)
Definition cathode (h : heap) (pos neg : list Z) (drift old : R) : R :=
  match neg, pos with
  | n :: _, p :: _ => match getZPosition (h n), getZPosition (h p) with
                      | Some zn, Some zp => (zn + zp) / 2                         (* 518 *)
                      | _, _ => old                                               (* 533 *)
                      end
  | n :: _, [] => match getZPosition (h n) with Some zn => zn + drift | None => old end  (* 523 *)
  | [], p :: _ => match getZPosition (h p) with Some zp => zp - drift | None => old end  (* 529 *)
  | [], [] => old
  end.

(** the update of the plane extent, TPCParametersImpl.cc 357-375 *)
Definition grow (e x : ext4) : ext4 :=
  mkE (if Rltb (e0 x) (e0 e) then e0 x else e0 e) (if Rltb (e1 e) (e1 x) then e1 x else e1 e)
      (if Rltb (e2 x) (e2 e) then e2 x else e2 e) (if Rltb (e3 e) (e3 x) then e3 x else e3 e).

(** addModule, TPCParametersImpl.cc 313-376 *)
Definition addModule (h : heap) (t : tpc) (p : option Z) : sres tpc unit :=
  match p with
  | None => SThrow t (EGear "TPCParametersImpl::addModule: This Module is not defined, Bad User")  (* 314 *)
  | Some a =>
      let m := h a in
      if negb (getTPCCoordinateType m =? t_type t)%Z                              (* 319 *)
      then SThrow t (EGear "TPCParametersImpl::addModule: Module has wrong coordinate type, Bad User")
      else match id_find (t_map t) (getModuleID m) with
      | Some _ => SThrow t (EGear "TPCParametersImpl::addModule: This Module Number has already been used.")
      | None =>
          let n := Z.of_nat (List.length (t_mods t)) in                           (* 324 *)
          let mods := t_mods t ++ [a] in                                          (* 330 *)
          let mp := (getModuleID m, n) :: t_map t in                              (* 329 *)
          let neg := match getZPosition m with
                     | Some z => if Rleb z 0 then t_neg t ++ [a] else t_neg t     (* 335-337 *)
                     | None => t_neg t ++ [a] end in                              (* 352 *)
          let pos := match getZPosition m with
                     | Some z => if Rleb z 0 then t_pos t else t_pos t ++ [a]     (* 341 *)
                     | None => t_pos t ++ [a] end in                              (* 351 *)
          let cath := match getZPosition m with
                      | Some _ => cathode h pos neg (t_drift t) (t_cathode t)     (* 345 *)
                      | None => t_cathode t end in
          let ext := match t_mods t with
                     | [] => getModuleExtent m                                    (* 359 *)
                     | _ => grow (t_ext t) (getModuleExtent m) end in             (* 363-374 *)
          SOk (mkT mods pos neg (t_drift t) (t_type t) cath mp ext (t_vel t)) tt
      end
  end.

(** getPadLayout, TPCParametersImpl.cc 393-414: the address of the only module *)
Definition getPadLayout (h : heap) (t : tpc) : result Z :=
  match t_mods t with
  | [a] => if (negb (Reqb (getAngle (h a)) 0) || negb (Reqb (fst (getOffset (h a))) 0)
               || negb (Reqb (snd (getOffset (h a))) 0))%bool                     (* 409-410 *)
           then Throw (EGear "Module coordinate system is not identical to coordinate system in pad plane.")
           else Ok a
  | [] => Throw (EGear "You cannot use TPCParametersImpl::getPadLayout() without a module.")
  | _ => Throw (EGear "You cannot use TPCParametersImpl::getPadLayout() with more than one module.")
  end.
(** getReadoutFrequency, TPCParametersImpl.cc 438-447 *)
Definition getReadoutFrequency (h : heap) (t : tpc) : result R :=
  match t_mods t with
  | [a] => Ok (TpcModuleModel.getReadoutFrequency (h a))
  | [] => Throw (EGear "You cannot use TPCParametersImpl::getRadoutFreuqency() without a module.")
  | _ => Throw (EGear "You cannot use TPCParametersImpl::getRadoutFreuqency() with more than one module.")
  end.

(** setMaxDriftLength, TPCParametersImpl.cc 449-460 *)
Definition setMaxDriftLength (h : heap) (t : tpc) (d : R) : tpc :=
  mkT (t_mods t) (t_pos t) (t_neg t) d (t_type t) (cathode h (t_pos t) (t_neg t) d (t_cathode t))
      (t_map t) (t_ext t) (t_vel t).
(** setDriftVelocity, TPCParametersImpl.cc 462-470 *)
Definition setDriftVelocity (t : tpc) (v : R) : tpc :=
  mkT (t_mods t) (t_pos t) (t_neg t) (t_drift t) (t_type t) (t_cathode t) (t_map t) (t_ext t) v.

(** ** Calls on the pair of heap and TPC *)
Record world := mkW { w_heap : heap; w_tpc : tpc }.

(** setReadoutFrequency, TPCParametersImpl.cc 472-486 *)
Definition setReadoutFrequency (w : world) (f : R) : sres world unit :=
  match t_mods (w_tpc w) with
  | [a] => match TpcModuleModel.setReadoutFrequency (w_heap w a) f with
           | SOk m _ => SOk (mkW (heap_set (w_heap w) a m) (w_tpc w)) tt
           | SThrow m e => SThrow (mkW (heap_set (w_heap w) a m) (w_tpc w)) e
           | SUB => SUB
           end
  | [] => SThrow w (EGear "You cannot use TPCParametersImpl:::setReadoutFrequency() without a module.")
  | _ => SThrow w (EGear "You cannot use TPCParametersImpl:::setReadoutFrequency() with more than one module.")
  end.
(** setPadLayout, TPCParametersImpl.cc 488-503; [a] is the address [new] returns.  A null pointer is
    dereferenced in 499.  The type test in 499 refuses modules, which [layout2d] does not contain. *)
Definition setPadLayout (w : world) (a : Z) (p : option layout2d) : sres world unit :=
  match t_mods (w_tpc w) with
  | _ :: _ => SThrow w (EGear "There is already one module in TPCParametersImpl. Will not replace it!")
  | [] =>
      match p with
      | None => SUB
      | Some p =>
          let h := heap_set (w_heap w) a (new_module 0 p (t_type (w_tpc w)) 0) in
          match addModule h (w_tpc w) (Some a) with
          | SOk t _ => SOk (mkW h t) tt
          | SThrow t e => SThrow (mkW h t) e
          | SUB => SUB
          end
      end
  end.

(** ** Copying *)
(** cleanup, TPCParametersImpl.cc 99-112 *)
Definition cleanup (t : tpc) : tpc :=
  mkT [] [] [] (t_drift t) (t_type t) (t_cathode t) (t_map t) (t_ext t) (t_vel t).
(** the loop of copy_and_assign, TPCParametersImpl.cc 48-69; the clones get the addresses
    [next], [next]+1, ... *)
Fixpoint copy_loop (h : heap) (next : Z) (src : list Z) (t : tpc) : heap * Z * tpc :=
  match src with
  | [] => (h, next, t)
  | a :: r =>
      let h' := heap_set h next (module_clone (h a)) in
      let neg := match getZPosition (h a) with
                 | Some z => if Rleb z 0 then t_neg t ++ [next] else t_neg t
                 | None => t_neg t ++ [next] end in
      let pos := match getZPosition (h a) with
                 | Some z => if Rleb z 0 then t_pos t else t_pos t ++ [next]
                 | None => t_pos t ++ [next] end in
      copy_loop h' (next + 1) r
        (mkT (t_mods t ++ [next]) pos neg (t_drift t) (t_type t) (t_cathode t) (t_map t) (t_ext t) (t_vel t))
  end.
(** copy_and_assign, TPCParametersImpl.cc 43-82, and operator=, 91-97, which call each other: line 81
    is [this->operator = (right)] on TPCParametersImpl itself. One unit of fuel is one call of
    copy_and_assign; [None] means that the call has not returned. *)
Fixpoint copy_and_assign (fuel : nat) (h : heap) (next : Z) (this right : tpc) : option (heap * Z * tpc) :=
  match fuel with
  | O => None
  | S f =>
      let '(h', n', t') := copy_loop h next (t_mods right) this in                (* 48-69 *)
      let t'' := mkT (t_mods t') (t_pos t') (t_neg t') (t_drift right) (t_type right) (t_cathode right)
                     (t_map right) (t_ext right) (t_vel right) in                 (* 72-77 *)
      copy_and_assign f h' n' (cleanup t'') right                                 (* 81, 93-94 *)
  end.
(** copy constructor, TPCParametersImpl.cc 38-41: members start with their default initialisers *)
Definition copy_tpc (fuel : nat) (h : heap) (next : Z) (right : tpc) :=
  copy_and_assign fuel h next (mkT [] [] [] 0 0 0 [] (mkE 0 0 0 0) 0) right.
(** operator=, TPCParametersImpl.cc 91-97, from another object *)
Definition assign_tpc (fuel : nat) (h : heap) (next : Z) (this right : tpc) :=
  copy_and_assign fuel h next (cleanup this) right.
