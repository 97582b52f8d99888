(** Specification vocabulary for TPC modules and the TPC description. *)
From Coq Require Import ZArith List Bool Reals.
From Verif Require Import Base RBase TpcModuleModel TpcModel.
From Verif Require RectSpec DiskSpec.
Import ListNotations.
Open Scope R_scope.

(** ** Points *)
(** The point of the plane that a pair of coordinates denotes. *)
Definition point (type : Z) (c : R * R) : R * R :=
  if (type =? POLAR)%Z then (fst c * cos (snd c), fst c * sin (snd c)) else c.
Definition pt_dist (a b : R * R) : R := RectSpec.dist2 (fst a) (snd a) (fst b) (snd b).

(** Where a module is mounted: rotated by [pl_angle] around its own origin, moved by the vector
    ([pl_x],[pl_y]), and seen in a mirror (x to -x) if it sits on the negative endplate. *)
Record placement := mkPl { pl_angle : R; pl_x : R; pl_y : R; pl_neg : bool }.
Definition mount (p : placement) (q : R * R) : R * R :=
  let x := fst q * cos (pl_angle p) - snd q * sin (pl_angle p) + pl_x p in
  let y := fst q * sin (pl_angle p) + snd q * cos (pl_angle p) + pl_y p in
  (if pl_neg p then - x else x, y).
Definition unmount (p : placement) (g : R * R) : R * R :=
  let x := (if pl_neg p then - fst g else fst g) - pl_x p in
  let y := snd g - pl_y p in
  (x * cos (pl_angle p) + y * sin (pl_angle p), y * cos (pl_angle p) - x * sin (pl_angle p)).

(** ** Calls on a module *)
Inductive mcall := MOffset (a b : R) | MZ (z : R) | MAngle (a : R) | MBorder (b : R) | MFreq (f : R).
Definition call_module (m : module) (c : mcall) : sres module unit :=
  match c with
  | MOffset a b => setOffset m a b
  | MZ z => setZPosition m z
  | MAngle a => setAngle m a
  | MBorder b => setBorderWidth m b
  | MFreq f => TpcModuleModel.setReadoutFrequency m f
  end.
(** An exception is caught by the caller and the object used further. *)
Fixpoint call_all (m : module) (h : list mcall) : option module :=
  match h with
  | [] => Some m
  | c :: t => match call_module m c with SOk m' _ => call_all m' t | SThrow m' _ => call_all m' t | SUB => None end
  end.
Definition known_type (type : Z) : Prop := type = CARTESIAN \/ type = POLAR.
(** [m] is what the user holds after constructing a module and calling [h]. *)
Definition module_made (id : Z) (p : layout2d) (type : Z) (f : R) (h : list mcall) (m : module) : Prop :=
  known_type type /\ call_all (new_module id p type f) h = Some m.

(** What the calls ask for. *)
Definition last_offset (h : list mcall) : R * R :=
  fold_left (fun o c => match c with MOffset a b => (a, b) | _ => o end) h (0, 0).
Definition last_angle (h : list mcall) : R :=
  fold_left (fun o c => match c with MAngle a => a | _ => o end) h 0.
Definition last_border (h : list mcall) : R :=
  fold_left (fun o c => match c with MBorder a => a | _ => o end) h 0.
Definition last_z (h : list mcall) : option R :=
  fold_left (fun o c => match c with MZ z => Some z | _ => o end) h None.
(** A module without z position counts as mounted on the positive side. *)
Definition negative (z : option R) : bool := match z with Some z => Rleb z 0 | None => false end.
Definition asked (type : Z) (h : list mcall) : placement :=
  let o := point type (last_offset h) in mkPl (last_angle h) (fst o) (snd o) (negative (last_z h)).

(** The side of the endplate known to the module when setOffset or setAngle was called last. *)
Definition side_step (st : bool * bool) (c : mcall) : bool * bool :=
  match c with
  | MZ z => (Rleb z 0, snd st)
  | MOffset _ _ | MAngle _ => (fst st, fst st)
  | _ => st
  end.
Definition side_seen (h : list mcall) : bool := snd (fold_left side_step h (false, false)).
(** The module needs no transformation at all, apart from the side it is on. *)
Definition at_origin (p : layout2d) (type : Z) (h : list mcall) : Prop :=
  type = lay_type p /\ last_angle h = 0 /\ last_offset h = (0, 0).
(** The side was told before the last setOffset or setAngle call, or it does not matter. *)
Definition side_settled (p : layout2d) (type : Z) (h : list mcall) : Prop :=
  side_seen h = negative (last_z h) \/ ~ at_origin p type h.
(** The offset is sane for a polar layout in a polar TPC: it is not exactly along the y axis. *)
Definition not_on_y_axis (p : layout2d) (type : Z) (h : list mcall) : Prop :=
  type = POLAR -> lay_type p = POLAR -> pl_x (asked type h) = 0 -> pl_y (asked type h) = 0.

(** ** Distance and extent of a set of points *)
Definition is_dist (S : R * R -> Prop) (q : R * R) (d : R) : Prop :=
  (exists s, S s /\ pt_dist q s = d) /\ (forall s, S s -> d <= pt_dist q s).
(** The active area of a module: the pad plane plus border, given in local coordinates, mounted. *)
Definition area (type : Z) (l : ext4) (p : placement) (q : R * R) : Prop :=
  exists c0 c1, e0 l <= c0 <= e1 l /\ e2 l <= c1 <= e3 l /\ q = mount p (point type (c0, c1)).
(** [l] describes a sensible area: not empty; a ring sector of at most a full turn if polar. *)
Definition sane_extent (type : Z) (l : ext4) : Prop :=
  e0 l <= e1 l /\ e2 l <= e3 l /\ (type = POLAR -> 0 <= e0 l /\ e3 l <= e2 l + 2 * PI).
(** [b] is the smallest axis-parallel box around the set. *)
Definition is_hull (S : R * R -> Prop) (b : ext4) : Prop :=
  (forall q, S q -> e0 b <= fst q <= e1 b /\ e2 b <= snd q <= e3 b) /\
  (exists q, S q /\ fst q = e0 b) /\ (exists q, S q /\ fst q = e1 b) /\
  (exists q, S q /\ snd q = e2 b) /\ (exists q, S q /\ snd q = e3 b).

(** The direction, seen from the origin, in which a point lies. *)
Definition direction (q : R * R) (theta : R) : Prop :=
  exists rho, 0 < rho /\ q = (rho * cos theta, rho * sin theta).
(** [lo],[hi] are at most one turn apart and describe, up to full turns, exactly the directions in which
    the set is seen from the origin. *)
Definition is_angle_range (S : R * R -> Prop) (lo hi : R) : Prop :=
  lo <= hi <= lo + 2 * PI /\
  forall theta, (exists q, S q /\ direction q theta) <-> (exists k : Z, lo <= theta + 2 * PI * IZR k <= hi).
(** A line through the origin touches the circle of the outer radius exactly at a corner of the area. *)
Definition grazes_corner (l : ext4) (p : placement) : Prop :=
  exists phi, (phi = e2 l \/ phi = e3 l) /\
    let q := mount p (point POLAR (e1 l, phi)) in
    let c := mount p (0, 0) in
    fst q * (fst q - fst c) + snd q * (snd q - snd c) = 0.

(** ** Boxes of numbers *)
Definition box_in (a b : ext4) : Prop := e0 b <= e0 a /\ e1 a <= e1 b /\ e2 b <= e2 a /\ e3 a <= e3 b.
(** [b] is the smallest box around all boxes of [l]. *)
Definition is_box_hull (l : list ext4) (b : ext4) : Prop :=
  (forall x, In x l -> box_in x b) /\ (forall c, (forall x, In x l -> box_in x c) -> box_in b c).

(** ** Calls on a TPC *)
Inductive tcall :=
| TAdd (p : option Z)                     (* addModule; None is a null pointer *)
| TDrift (d : R) | TVel (v : R) | TFreq (f : R)
| TLayout (a : Z) (p : option layout2d)   (* setPadLayout; [new] returns address [a] *)
| TMod (a : Z) (c : mcall).               (* a call on the module at address [a] *)
Definition call_tpc (w : world) (c : tcall) : sres world unit :=
  match c with
  | TAdd p => match addModule (w_heap w) (w_tpc w) p with
              | SOk t _ => SOk (mkW (w_heap w) t) tt
              | SThrow t e => SThrow (mkW (w_heap w) t) e
              | SUB => SUB
              end
  | TDrift d => SOk (mkW (w_heap w) (setMaxDriftLength (w_heap w) (w_tpc w) d)) tt
  | TVel v => SOk (mkW (w_heap w) (setDriftVelocity (w_tpc w) v)) tt
  | TFreq f => setReadoutFrequency w f
  | TLayout a p => setPadLayout w a p
  | TMod a c => match call_module (w_heap w a) c with
                | SOk m _ => SOk (mkW (heap_set (w_heap w) a m) (w_tpc w)) tt
                | SThrow m e => SThrow (mkW (heap_set (w_heap w) a m) (w_tpc w)) e
                | SUB => SUB
                end
  end.
Definition after (r : sres world unit) : option world :=
  match r with SOk w _ => Some w | SThrow w _ => Some w | SUB => None end.
Fixpoint tpc_run (w : world) (h : list tcall) : option world :=
  match h with
  | [] => Some w
  | c :: t => match after (call_tpc w c) with Some w' => tpc_run w' t | None => None end
  end.
(** [w] is reached from a new TPC, with any modules in memory, by some calls. *)
Definition tpc_reached (w : world) : Prop :=
  exists drift type h calls, tpc_run (mkW h (new_tpc drift type)) calls = Some w.

(** A history in which modules are not changed any more once they are in the TPC (apart from the
    readout frequency). *)
Definition still_call (w : world) (c : tcall) : Prop :=
  match c with
  | TMod a (MFreq _) => True
  | TMod a _ => ~ In a (getModules (w_tpc w))
  | _ => True
  end.
Fixpoint still (w : world) (h : list tcall) : Prop :=
  match h with
  | [] => True
  | c :: t => still_call w c /\ match after (call_tpc w c) with Some w' => still w' t | None => True end
  end.
Definition tpc_still (w : world) : Prop :=
  exists drift type h calls, still (mkW h (new_tpc drift type)) calls /\
    tpc_run (mkW h (new_tpc drift type)) calls = Some w.

(** The first element of a list with the least value of [f]. *)
Definition first_min {A} (f : A -> R) (l : list A) (a : A) : Prop :=
  exists l1 l2, l = l1 ++ a :: l2 /\ (forall x, In x l1 -> f a < f x) /\ (forall x, In x l2 -> f a <= f x).

(** z positions of the modules, as far as set *)
Definition zs (h : heap) (l : list Z) : list (option R) := map (fun a => getZPosition (h a)) l.
Definition on_negative (h : heap) (a : Z) : bool :=
  match getZPosition (h a) with Some z => Rleb z 0 | None => true end.
Definition on_positive (h : heap) (a : Z) : bool :=
  match getZPosition (h a) with Some z => Rltb 0 z | None => true end.
(** The cathode of a TPC whose first module on the negative (positive) side is at [n] ([p]). *)
Definition cathode_of (n p : option R) (drift : R) : R :=
  match n, p with
  | Some n, Some p => (n + p) / 2
  | Some n, None => n + drift
  | None, Some p => p - drift
  | None, None => 0
  end.
(** [r0] and [r1] are the smallest and largest distance of a point of the set from the origin. *)
Definition is_radius_range (S : R * R -> Prop) (r0 r1 : R) : Prop :=
  (forall q, S q -> r0 <= pt_dist (0, 0) q <= r1) /\
  (exists q, S q /\ pt_dist (0, 0) q = r0) /\ (exists q, S q /\ pt_dist (0, 0) q = r1).
(** The sector is written within two turns around zero. *)
Definition two_turns (l : ext4) : Prop := - (2 * PI) <= e2 l /\ e3 l <= 2 * PI.
(** The calls that mount a module and recompute its extents. *)
Definition places (c : mcall) : Prop := match c with MOffset _ _ | MAngle _ => True | _ => False end.
(** The module at address [a] fits: the coordinate type of the TPC and an ID that is not in use. *)
Definition accepts (w : world) (a : Z) : Prop :=
  getTPCCoordinateType (w_heap w a) = getCoordinateType (w_tpc w) /\
  forall b, In b (getModules (w_tpc w)) -> getModuleID (w_heap w b) <> getModuleID (w_heap w a).
