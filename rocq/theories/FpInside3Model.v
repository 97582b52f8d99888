(** isInsidePad of VersatileDiskRowLayout in the arithmetic of the machine: every operation on doubles is rounded to the nearest double (overflow left out). *)
From Coq Require Import ZArith Bool Reals.
From Verif Require Import Base RBase DiskBase NumModel FpModel VdModel FpFpaModel FpVdModel.
Open Scope R_scope.

(** isInsidePad(r,phi,padIndex), VersatileDiskRowLayout.cc 310-334 *)
Definition vd_isInsidePad_d (l : vd) (r phi : R) (i : Z) : result bool :=
  rmap (fun row =>
    let rMin := fsub (v_rCentre row) (fmul (v_rowHeight row) (1 / 2)) in                          (* 317 *)
    let rMax := fadd (v_rCentre row) (fmul (v_rowHeight row) (1 / 2)) in                          (* 318 *)
    let phiMin := fadd (v_offset row) (fmul (v_padPitch row) (IZR (disk_padNumber i))) in         (* 321 *)
    let phi := if Rltb phi phiMin then fadd phi two_pi else phi in                                (* 324-325 *)
    let phi := if Rleb (fadd phiMin two_pi) phi then fsub phi two_pi else phi in                  (* 327-328 *)
    let phiMax := fadd phiMin (v_padPitch row) in                                                 (* 330 *)
    (Rleb rMin r && Rleb r rMax && Rleb phi phiMax)%bool)                                         (* 332-333 *)
  (vd_row_of l i).
