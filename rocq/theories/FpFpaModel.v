(** FixedPadAngleDiskLayout again, in the arithmetic of the machine: every operation on doubles is rounded to the nearest double
    (ties to even; overflow left out).  Only the part of getNearestPad for angles within the layout is modelled; where the code goes
    on with sine and cosine the model says [Outside]. *)
From Coq Require Import ZArith List String Bool Reals.
From Flocq Require Import Core.
From Verif Require Import Base RBase DiskBase NumModel FpModel FpaModel.
Import ListNotations.
Open Scope string_scope.
Open Scope R_scope.

Definition fmul (x y : R) : R := to_double (x * y).
(** constructor, FixedPadAngleDiskLayout.cc 28-108 *)
Definition new_fpa_d (rMin rMax : R) (nRow : Z) (phiMin phiMax : R) (nPadsInRow : Z) : result fpa :=
  if (nRow <? 0)%Z then Throw (ELength "vector::_M_default_append")
  else Ok (mkFpa rMin rMax nRow (fdiv (fsub rMax rMin) (IZR nRow)) phiMin phiMax                    (* 38 *)
                 (fdiv (fsub phiMax phiMin) (IZR nPadsInRow)) nPadsInRow (nRow * nPadsInRow)        (* 39, 87 *)
                 (repeat None (Z.to_nat nRow))).
(** getPadCenter, 151-161 *)
Definition fpa_getPadCenter_d (l : fpa) (i : Z) : R * R :=
  (fadd (fmul (fadd (IZR (disk_rowNumber i)) (1 / 2)) (p_rowHeight l)) (p_rMin l),
   fadd (fmul (fadd (IZR (disk_padNumber i)) (1 / 2)) (p_padAngle l)) (p_phiMin l)).

Inductive nearest := Running (** the loops have not ended *) | Outside | Found (r : result Z).
(** getNearestPad, 211-234 *)
Definition fpa_getNearestPad_d (fuel : nat) (l : fpa) (r phi : R) : nearest :=
  if Rltb r 0                                                                     (* 214 *)
  then Found (Throw (EOutOfRange "FixedPadAngleDiskLayout::getNearestPad: radius must not be negative in polar coordinates!"))
  else
    let phiMean := fdiv (fadd (p_phiMax l) (p_phiMin l)) 2 in                     (* 217 *)
    match wrap_around fuel phiMean phi with                                       (* 220-221 *)
    | None => Running
    | Some phi =>
        if (Rleb phi (p_phiMax l) && Rleb (p_phiMin l) phi)%bool then             (* 223 *)
          Found
            (rbind (to_int (fdiv (fsub phi (p_phiMin l)) (p_padAngle l))) (fun padNumber =>                  (* 226 *)
             rbind (if Rltb r (p_rMin l) then Ok 0%Z
                    else to_int (IZR (Zfloor (fdiv (fsub r (p_rMin l)) (p_rowHeight l))))) (fun rowNum =>    (* 228 *)
             let rowNum := if (p_nRow l <=? rowNum)%Z then (p_nRow l - 1)%Z else rowNum in
             fpa_getPadIndex l rowNum padNumber)))                                (* 233 *)
        else Outside
    end.
