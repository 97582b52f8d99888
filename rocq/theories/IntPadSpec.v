(** Specification vocabulary: histories of calls on layouts whose number of pads is an int. *)
From Coq Require Import ZArith List Reals.
From Verif Require Import Base RBase RectModel VdModel RectSpec DiskSpec IntPadModel.
Import ListNotations.

(** Executing the calls; an exception is caught by the caller and the object used further; [None]: undefined behaviour. *)
Definition keep {S A : Type} (r : sres S A) : option S := match r with SOk l _ => Some l | SThrow l _ => Some l | SUB => None end.
Definition do_call_i (l : rect) (c : rect_call) : option rect :=
  match c with
  | CAdd a => keep (addRow_i l (a_nRow a) (a_nPad a) (a_padWidth a) (a_padHeight a) (a_rowHeight a) (a_left a) (a_right a))
  | CRepeat n => keep (repeatRows_i l n)
  | CPads r => keep (getPadsInRow l r)
  end.
Fixpoint do_calls_i (l : rect) (h : list rect_call) : option rect :=
  match h with [] => Some l | c :: t => match do_call_i l c with Some l' => do_calls_i l' t | None => None end end.
Definition vd_do_i (l : vd) (c : vd_call) : option vd :=
  match c with
  | VAdd a => keep (vd_addRow_i l (va_nPads a) (va_pitch a) (va_height a) (va_offset a) (va_padWidth a) (va_padHeight a) (va_repeat a))
  | VPads r => keep (vd_getPadsInRow l r)
  end.
Fixpoint vd_run_i (l : vd) (h : list vd_call) : option vd :=
  match h with [] => Some l | c :: t => match vd_do_i l c with Some l' => vd_run_i l' t | None => None end end.
(** The largest int. *)
Definition int_max : Z := 2147483647.
