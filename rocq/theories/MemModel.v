(** Who owns what: the memory behind pad layouts, TPC modules and TPCs.

    Only what matters for memory is kept: of a layout (RectangularPadRowLayout, VersatileDiskRowLayout,
    FixedPadSizeDiskLayout, FixedPadAngleDiskLayout) the vector _padIndices of pointers to the lists of pads, which is
    filled by getPadsInRow; of a TPCModuleImpl the pointer to its layout, the number and the coordinate type; of a
    TPCParametersImpl the pointers to the modules and the numbers in use.  Addresses are integers, never used twice.
    Using an object that is not alive is undefined behaviour.  Running out of memory is left out. *)
From Coq Require Import ZArith List Bool.
Import ListNotations.
Open Scope Z_scope.

(** which class a layout is of; [Fixed]: one of the two disk layouts whose rows are given to the constructor *)
Inductive kind := Rect | Versatile | Fixed.
Definition same_kind (a b : kind) : bool :=
  match a, b with Rect, Rect | Versatile, Versatile | Fixed, Fixed => true | _, _ => false end.
(** _padIndices: a null pointer or the address of a list of pads; and the number of rows *)
Record lay := mkLay { l_kind : kind; l_rows : nat; l_cache : list (option Z) }.
(** TPCModuleImpl.h: _padRowLayout, _moduleID, _momsCoordinateType *)
Record mod_ := mkMod { m_lay : Z; m_id : Z; m_type : Z }.
(** TPCParametersImpl.h: _TPCModules, the keys of _moduleIDMap, _coordinateType *)
Record tpc := mkTpc { t_mods : list Z; t_ids : list Z; t_type : Z }.

(** what is alive *)
Record mem := mkMem { vecs : Z -> bool; lays : Z -> option lay; mods : Z -> option mod_; tpcs : Z -> option tpc; next : Z }.
Definition start : mem := mkMem (fun _ => false) (fun _ => None) (fun _ => None) (fun _ => None) 1.

Definition upd {A} (f : Z -> A) (a : Z) (x : A) : Z -> A := fun b => if b =? a then x else f b.
Definition set_vecs (m : mem) f := mkMem f (lays m) (mods m) (tpcs m) (next m).
Definition set_lay (m : mem) l x := mkMem (vecs m) (upd (lays m) l x) (mods m) (tpcs m) (next m).
Definition set_mod (m : mem) a x := mkMem (vecs m) (lays m) (upd (mods m) a x) (tpcs m) (next m).
Definition set_tpc (m : mem) a x := mkMem (vecs m) (lays m) (mods m) (upd (tpcs m) a x) (next m).
Definition bump (m : mem) := mkMem (vecs m) (lays m) (mods m) (tpcs m) (next m + 1).

(** what a call gives back: nothing, a new object, a new module with its layout, a list of pads, or the empty list
    that is the same for all *)
Inductive out := ODone | OAddr (a : Z) | OPair (a l : Z) | ORef (v : Z) | OEmpty.
Inductive mres := MOk (m : mem) (r : out) | MThrow (m : mem) | MUB.

(** cleanup of a layout: RectangularPadRowLayout.cc 220-225, VersatileDiskRowLayout.cc 171-176,
    FixedPadSizeDiskLayout.cc 21-26, FixedPadAngleDiskLayout.cc 21-26.  [delete 0] does nothing. *)
Fixpoint free_vecs (c : list (option Z)) (f : Z -> bool) : option (Z -> bool) :=
  match c with
  | [] => Some f
  | None :: t => free_vecs t f
  | Some v :: t => if f v then free_vecs t (upd f v false) else None
  end.
Definition cleanup_layout (m : mem) (l : Z) : option mem :=
  match lays m l with
  | None => None
  | Some x => match free_vecs (l_cache x) (vecs m) with Some f => Some (set_vecs m f) | None => None end
  end.
(** the destructors: RectangularPadRowLayout.cc 208-211, VersatileDiskRowLayout.cc 159-162,
    FixedPadSizeDiskLayout.cc 11-14, FixedPadAngleDiskLayout.cc 11-14 *)
Definition delete_layout (m : mem) (l : Z) : option mem :=
  match cleanup_layout m l with Some m' => Some (set_lay m' l None) | None => None end.

(** copy_and_assign of a layout: all pointers null, as many as _nRow says (RectangularPadRowLayout.cc 34-53, where
    _nRow is 0; FixedPadSizeDiskLayout.cc 133-157, FixedPadAngleDiskLayout.cc 122-149) or as there are rows
    (VersatileDiskRowLayout.cc 29-46) *)
Definition copy_of (x : lay) : lay :=
  mkLay (l_kind x) (l_rows x) (repeat None (match l_kind x with Rect => O | _ => l_rows x end)).

(** the constructors (FixedPadSizeDiskLayout.cc 85-94, FixedPadAngleDiskLayout.cc 76-85: as many null pointers as
    rows; the others begin without rows) *)
Definition new_layout (k : kind) (n : nat) : lay :=
  match k with Fixed => mkLay k n (repeat None n) | _ => mkLay k 0 [] end.

(** addRow, RectangularPadRowLayout.cc 118-127, VersatileDiskRowLayout.cc 82-88; with all its checks passed *)
Definition add_rows (x : lay) (n : nat) : lay := mkLay (l_kind x) (l_rows x + n) (l_cache x ++ repeat None n).

(** the entry of _padIndices; [None]: at() throws *)
Definition entry (x : lay) (row : Z) : option (option Z) :=
  if row <? 0 then None else nth_error (l_cache x) (Z.to_nat row).
Definition set_entry (x : lay) (row : Z) (v : Z) : lay :=
  mkLay (l_kind x) (l_rows x) (firstn (Z.to_nat row) (l_cache x) ++ Some v :: skipn (S (Z.to_nat row)) (l_cache x)).

(** ~TPCModuleImpl, TPCModuleImpl.cc 1238-1249 *)
Definition delete_module (m : mem) (a : Z) : option mem :=
  match mods m a with
  | None => None
  | Some x => match delete_layout m (m_lay x) with Some m' => Some (set_mod m' a None) | None => None end
  end.

(** the loop of TPCParametersImpl::cleanup, TPCParametersImpl.cc 99-105 *)
Fixpoint delete_modules (m : mem) (l : list Z) : option mem :=
  match l with
  | [] => Some m
  | a :: t => match delete_module m a with Some m' => delete_modules m' t | None => None end
  end.

(** addModule, TPCParametersImpl.cc 313-332, on a module *)
Definition add_module (m : mem) (t : Z) (a : Z) : mres :=
  match tpcs m t, mods m a with
  | Some x, Some y =>
      if negb (m_type y =? t_type x) then MThrow m
      else if existsb (Z.eqb (m_id y)) (t_ids x) then MThrow m
      else MOk (set_tpc m t (Some (mkTpc (t_mods x ++ [a]) (t_ids x ++ [m_id y]) (t_type x)))) ODone
  | _, _ => MUB
  end.

Inductive call :=
| CNewLayout (k : kind) (n : nat)          (* a layout by its constructor *)
| CAddRows (l : Z) (n : nat)               (* addRow *)
| CPads (l : Z) (row : Z)                  (* getPadsInRow, of the layout or of a module (TPCModuleImpl.h 165) *)
| CCopyLayout (l : Z)                      (* copy constructor or clone *)
| CAssignLayout (l r : Z)                  (* *l = *r *)
| CDelLayout (l : Z)
| CNewModule (id l ty : Z)                 (* new TPCModuleImpl( id, l, ty ) *)
| CCopyModule (x : Z)                      (* copy constructor or clone *)
| CAssignModule (x y : Z)                  (* *x = *y *)
| CDelModule (x : Z)
| CNewTpc (ty : Z)
| CAddModule (t : Z) (x : option Z)
| CSetPadLayout (t l : Z)
| CDelTpc (t : Z).

Definition step (m : mem) (c : call) : mres :=
  match c with
  | CNewLayout k n => MOk (bump (set_lay m (next m) (Some (new_layout k n)))) (OAddr (next m))
  | CAddRows l n =>
      match lays m l with
      | None => MUB
      | Some x => match l_kind x with
                  | Fixed => MThrow m                                (* there is no such function: does not compile *)
                  | _ => MOk (set_lay m l (Some (add_rows x n))) ODone
                  end
      end
  | CPads l row =>
      (* RectangularPadRowLayout.cc 227-253, VersatileDiskRowLayout.cc 178-204, FixedPadSizeDiskLayout.cc 209-235,
         FixedPadAngleDiskLayout.cc 163-187; _padIndices is never longer than the rows *)
      match lays m l with
      | None => MUB
      | Some x => match entry x row with
                  | None => MOk m OEmpty
                  | Some (Some v) => MOk m (ORef v)
                  | Some None => let v := next m in
                      MOk (bump (set_vecs (set_lay m l (Some (set_entry x row v))) (upd (vecs m) v true))) (ORef v)
                  end
      end
  | CCopyLayout l =>
      match lays m l with
      | None => MUB
      | Some x => MOk (bump (set_lay m (next m) (Some (copy_of x)))) (OAddr (next m))
      end
  | CAssignLayout l r =>
      (* RectangularPadRowLayout.cc 213-218, VersatileDiskRowLayout.cc 164-169, FixedPadSizeDiskLayout.cc 126-131,
         FixedPadAngleDiskLayout.cc 115-120 *)
      match lays m l, lays m r with
      | Some x, Some y =>
          if negb (same_kind (l_kind x) (l_kind y)) then MThrow m    (* does not compile *)
          else match cleanup_layout m l with
               | Some m' => MOk (set_lay m' l (Some (copy_of y))) ODone
               | None => MUB
               end
      | _, _ => MUB
      end
  | CDelLayout l => match delete_layout m l with Some m' => MOk m' ODone | None => MUB end
  | CNewModule id l ty =>
      (* TPCModuleImpl.cc 1167-1199: the layout is taken as it is *)
      match lays m l with
      | None => MUB
      | Some _ => MOk (bump (set_mod m (next m) (Some (mkMod l id ty)))) (OAddr (next m))
      end
  | CCopyModule x =>
      (* TPCModuleImpl.cc 1201-1204, 1213-1235, 1242-1245 *)
      match mods m x with
      | None => MUB
      | Some y => match lays m (m_lay y) with
                  | None => MUB
                  | Some z => let l := next m in
                      let m1 := bump (set_lay m l (Some (copy_of z))) in
                      MOk (bump (set_mod m1 (next m1) (Some (mkMod l (m_id y) (m_type y))))) (OPair (next m1) l)
                  end
      end
  | CAssignModule x y =>
      (* TPCModuleImpl.cc 1206-1211: the layout of x is deleted, then that of y is cloned *)
      match mods m x, mods m y with
      | Some a, Some b =>
          match delete_layout m (m_lay a) with
          | None => MUB
          | Some m1 => match lays m1 (m_lay b) with
                       | None => MUB
                       | Some z => MOk (bump (set_mod (set_lay m1 (next m1) (Some (copy_of z))) x
                                                      (Some (mkMod (next m1) (m_id b) (m_type b))))) (OAddr (next m1))
                       end
          end
      | _, _ => MUB
      end
  | CDelModule x => match delete_module m x with Some m' => MOk m' ODone | None => MUB end
  | CNewTpc ty => MOk (bump (set_tpc m (next m) (Some (mkTpc [] [] ty)))) (OAddr (next m))
  | CAddModule t None => match tpcs m t with Some _ => MThrow m | None => MUB end    (* TPCParametersImpl.cc 314 *)
  | CAddModule t (Some x) => add_module m t x
  | CSetPadLayout t l =>
      (* TPCParametersImpl.cc 488-503; [l] is not a module *)
      match tpcs m t, lays m l with
      | Some x, Some _ =>
          match t_mods x with
          | _ :: _ => MThrow m
          | [] => let a := next m in
              match add_module (bump (set_mod m a (Some (mkMod l 0 (t_type x))))) t a with
              | MOk m' _ => MOk m' (OAddr a)
              | r => r
              end
          end
      | _, _ => MUB
      end
  | CDelTpc t =>
      (* ~TPCParametersImpl, TPCParametersImpl.cc 84-87 *)
      match tpcs m t with
      | None => MUB
      | Some x => match delete_modules m (t_mods x) with Some m' => MOk (set_tpc m' t None) ODone | None => MUB end
      end
  end.
