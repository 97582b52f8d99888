(** Parts shared by the three polar pad layouts: the [while] loops that wrap an angle, the pad index
    coding and FixedDiskLayoutBase (src/gearimpl/FixedDiskLayoutBase.cc,
    include/gear/gearimpl/FixedDiskLayoutBase.h).  Doubles are reals and M_PI is the exact [PI]. *)
From Coq Require Import ZArith List String Bool Reals.
From Flocq Require Import Core.Raux.
From Verif Require Import Base RBase.
Import ListNotations.
Open Scope R_scope.

(** One of the loops [while (phi < lo) phi += 2.*M_PI] (FixedPadSizeDiskLayout.cc 54, 273, 278, 513,
    544; FixedPadAngleDiskLayout.cc 220; VersatileDiskRowLayout.cc 390, 419, 460, 484) executed for at
    most [fuel] turns. [None]: the loop has not ended. *)
Fixpoint loop_up (fuel : nat) (lo phi : R) : option R :=
  if Rltb phi lo then match fuel with O => None | S f => loop_up f lo (phi + 2 * PI) end
  else Some phi.
(** [while (phi > hi) phi -= 2.*M_PI] (FixedPadSizeDiskLayout.cc 55, 274, 279, 514, 545;
    FixedPadAngleDiskLayout.cc 221; VersatileDiskRowLayout.cc 391, 420, 461, 485) *)
Fixpoint loop_down (fuel : nat) (hi phi : R) : option R :=
  if Rltb hi phi then match fuel with O => None | S f => loop_down f hi (phi - 2 * PI) end
  else Some phi.

(** What the loops compute.  DiskProofs.loop_up_result and loop_down_result prove that every long
    enough execution of [loop_up] ([loop_down]) ends with this value, so the layouts below use it. *)
Definition wrap_up (lo phi : R) : R := phi + 2 * PI * IZR (Z.max 0 (Zceil ((lo - phi) / (2 * PI)))).
Definition wrap_down (hi phi : R) : R := phi - 2 * PI * IZR (Z.max 0 (Zceil ((phi - hi) / (2 * PI)))).

(** [(int) std::floor(a / b)]: a division by zero gives inf or nan, which no int can represent *)
Definition floor_div (a b : R) : result Z := if Reqb b 0 then UB else to_int (IZR (Zfloor (a / b))).
(** [(int) (a / b)] *)
Definition trunc_div (a b : R) : result Z := if Reqb b 0 then UB else to_int (a / b).

(** getRowNumber, FixedDiskLayoutBase.h 46, FixedPadSizeDiskLayout.h 157 *)
Definition disk_rowNumber (padIndex : Z) : Z := Z.shiftr (Z.land 4294901760 (uint32 padIndex)) 16.
(** getPadNumber, FixedDiskLayoutBase.h 51, FixedPadSizeDiskLayout.h 161, VersatileDiskRowLayout.h 179 *)
Definition disk_padNumber (padIndex : Z) : Z := Z.land 65535 padIndex.
(** [(rowNum << 16 ) | ( 0x0000ffff & padNum )], the last line of every getPadIndex *)
Definition disk_pack (rowNum padNum : Z) : Z := int32 (Z.lor (Z.shiftl rowNum 16) (Z.land 65535 padNum)).

(** the part of getDistanceToPad for one of the two straight edges, FixedDiskLayoutBase.cc 53-69 and
    73-89: [edge] is phi_min or phi_max *)
Definition edge_distance (r phi r_min r_max edge : R) : R :=
  let r_intersect := r * (cos phi * cos edge + sin phi * sin edge) in
  let m := r * (cos phi * sin edge - sin phi * cos edge) in
  if Rltb r_intersect r_min then sqrt (r * r + r_min * r_min - 2 * r_min * r_intersect)
  else if Rltb r_max r_intersect then sqrt (r * r + r_max * r_max - 2 * r_max * r_intersect)
  else Rabs m.

(** getDistanceToPad, FixedDiskLayoutBase.cc 20-96; pad centre, row height and pitch are the values of
    the virtual functions called in 23-28 *)
Definition disk_distance (center : R * R) (rowHeight pitch r phi : R) : R :=
  let r_min := fst center - rowHeight / 2 in
  let r_max := fst center + rowHeight / 2 in
  let phi_min := snd center - pitch / 2 in
  let phi_max := snd center + pitch / 2 in
  if (Rleb phi_min phi && Rleb phi phi_max)%bool then
    if (Rleb r_min r && Rleb r r_max)%bool then 0
    else if Rltb r r_min then r_min - r else r - r_max
  else
    let d1 := edge_distance r phi r_min r_max phi_min in
    let d2 := edge_distance r phi r_min r_max phi_max in
    if Rltb d1 d2 then d1 else d2.

(** the loop of every getPadsInRow that fills a new vector (FixedPadSizeDiskLayout.cc 221-224,
    FixedPadAngleDiskLayout.cc 172-175, VersatileDiskRowLayout.cc 190-193), [f] being getPadIndex of
    the row *)
Fixpoint fill_indices (f : Z -> result Z) (k : nat) (i : Z) : result (list Z) :=
  match k with
  | O => Ok []
  | S k' => rbind (f i) (fun p => rmap (cons p) (fill_indices f k' (i + 1)))
  end.
(** [_padIndices[n] = new std::vector<int>(...)] *)
Definition cache_set (c : list (option (list Z))) (n : nat) (v : list Z) : list (option (list Z)) :=
  firstn n c ++ [Some v] ++ skipn (S n) c.
