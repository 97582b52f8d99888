(** FixedPadSizeDiskLayout again, in the arithmetic of the machine: every operation on doubles is rounded to the nearest double
    (ties to even; overflow left out).  Only the part of getNearestPad for points within the opening angle is modelled; where the code
    goes on with other points the model says [Outside].  [_nPad] does not overflow. *)
From Coq Require Import ZArith List String Bool Reals.
From Flocq Require Import Core.
From Verif Require Import Base RBase DiskBase NumModel FpModel FpsModel FpFpaModel.
Import ListNotations.
Open Scope string_scope.
Open Scope R_scope.

(** row loop of the constructor, FixedPadSizeDiskLayout.cc 99-117: rows [i .. i+k-1] *)
Fixpoint fps_rows_d (k : nat) (i : Z) (rMin rowHeight phiMax padWidth padGap : R) : result (list frow) :=
  match k with
  | O => Ok []
  | S k' =>
      let rc := fadd (fadd rMin (fmul (IZR i) rowHeight)) (fmul (1 / 2) rowHeight) in             (* 103 *)
      let u := fmul rc phiMax in                                                                  (* 105 *)
      let pitch := fadd padWidth padGap in
      rbind (if Reqb pitch 0 then UB else to_int (IZR (Zfloor (fdiv u pitch)))) (fun np =>        (* 107 *)
      rmap (cons (mkF np rc (fdiv phiMax (IZR np))))                                              (* 109, 116 *)
           (fps_rows_d k' (i + 1) rMin rowHeight phiMax padWidth padGap))
  end.
(** constructor, 28-119; [None]: the loops of 54-55 have not ended *)
Definition new_fps_d (fuel : nat) (rMin rMax padHeight padWidth : R) (nRow : Z) (padGap phiMax : R) : option (result fps) :=
  if (Rleb padHeight 0 || Rleb padWidth 0)%bool                                                   (* 42 *)
  then Some (Throw (EParse " FixedPadSizeDiskLayout: missing or inconsistent parameters"))
  else match wrap_two_turns fuel phiMax with                                                      (* 54-55 *)
  | None => None
  | Some phiMax => Some (
      rbind (to_int (fdiv (fsub (fadd rMax (to_double (1 / 100))) rMin) padHeight)) (fun nr =>    (* 68 *)
      let n := if (0 <? nRow)%Z then nRow else nr in                                              (* 70 *)
      let n := if (nr <? nRow)%Z then nr else n in                                                (* 72-83 *)
      if (n <? 0)%Z then Throw (ELength "vector::_M_default_append")                              (* 85 *)
      else
        let rowHeight := fdiv (fsub rMax rMin) (IZR n) in                                         (* 95 *)
        rmap (fun rows => mkFps rMin rMax phiMax rowHeight padWidth padHeight padGap n (sum_npad rows) rows
                                (repeat None (Z.to_nat n)))
             (fps_rows_d (Z.to_nat n) 0 rMin rowHeight phiMax padWidth padGap)))
  end.
(** getPadCenter, 198-209 *)
Definition fps_getPadCenter_d (l : fps) (i : Z) : result (R * R) :=
  rbind (sub (f_rows l) (disk_rowNumber i)) (fun row =>
  if (f_NPad row =? 0)%Z then UB
  else Ok (f_RCenter row, fmul (fadd (IZR (disk_padNumber i)) (1 / 2)) (f_PhiPad row))).
(** getNearestPad, 260-318 *)
Definition fps_getNearestPad_d (fuel : nat) (l : fps) (r phi : R) : nearest :=
  if Rltb (Rabs r) (to_double (1 / 1000000))                                                      (* 262 *)
  then Found (Throw (EGear "FixedPadSizeDiskLayout::getNearestPad: r can't be zero !"))
  else match (if Rltb (Rabs (fsub (f_phiMax l) two_pi)) (to_double (1 / 1000000))                 (* 270 *)
              then wrap_circle fuel phi else wrap_two_turns fuel phi) with                        (* 273-279 *)
  | None => Running
  | Some phi =>
      if (Rltb 0 r && Rleb 0 phi && Rleb phi (f_phiMax l))%bool then                              (* 297 *)
        Found
          (rbind (if Rltb r (f_rMin l) then Ok 0%Z
                  else to_int (IZR (Zfloor (fdiv (fsub r (f_rMin l)) (f_rowHeight l))))) (fun rowNum =>   (* 298 *)
           let rowNum := if (f_nRow l <=? rowNum)%Z then (f_nRow l - 1)%Z else rowNum in          (* 300-301 *)
           rbind (sub (f_rows l) rowNum) (fun row =>
           if (f_NPad row =? 0)%Z then UB
           else rbind (to_int (IZR (Zfloor (fdiv phi (f_PhiPad row))))) (fun padNum =>            (* 303 *)
           let padNum := if (f_NPad row <=? padNum)%Z then (f_NPad row - 1)%Z else padNum in      (* 305-306 *)
           fps_getPadIndex l rowNum padNum))))                                                    (* 312 *)
      else Outside
  end.
