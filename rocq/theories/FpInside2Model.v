(** isInsidePad of FixedPadSizeDiskLayout in the arithmetic of the machine: every operation on doubles is rounded to the nearest double (overflow left out). *)
From Coq Require Import ZArith Bool Reals.
From Verif Require Import Base RBase DiskBase NumModel FpModel FpsModel FpFpaModel FpFpsModel.
Open Scope R_scope.

(** getPadWidth, FixedPadSizeDiskLayout.cc 166-179 (inf for a row centred at radius 0: UB here) *)
Definition fps_getPadWidth_d (l : fps) (i : Z) : result R :=
  match nthZ (f_rows l) (disk_rowNumber i) with
  | Some row => if Reqb (f_RCenter row) 0 then UB else Ok (fdiv (f_padWidth l) (f_RCenter row))   (* 173 *)
  | None => Ok 0                                                                                  (* 177 *)
  end.
(** isInsidePad(r,phi,padIndex), FixedPadSizeDiskLayout.cc 498-535; [None]: the loops of 513-514 have not ended *)
Definition fps_isInsidePad_d (fuel : nat) (l : fps) (r phi : R) (i : Z) : option (result bool) :=
  if (Rltb r (f_rMin l) || Rltb (f_rMax l) r)%bool then Some (Ok false)                           (* 508 *)
  else match wrap_circle fuel phi with                                                            (* 513-514 *)
  | None => None
  | Some phi => Some (
      rbind (fps_getPadCenter_d l i) (fun p =>                                                    (* 516 *)
      rmap (fun w => (Rleb (Rabs (fsub r (fst p))) (fmul (1 / 2) (f_padHeight l))                 (* 532 *)
                      && Rleb (Rabs (fsub phi (snd p))) (fmul (1 / 2) w))%bool)                   (* 520, 533 *)
           (fps_getPadWidth_d l i)))
  end.
