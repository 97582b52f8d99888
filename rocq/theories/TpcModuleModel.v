(** Model of gear::TPCModuleImpl (src/gearimpl/TPCModuleImpl.cc, include/gear/gearimpl/TPCModuleImpl.h)
    and of the virtual interface PadRowLayout2D it calls.  Doubles are reals and M_PI is the exact
    [PI].  Not modelled: the named parameters of a module (they are in ParamsModel), a module used as
    the pad layout of another module. *)
From Coq Require Import ZArith List String Bool Reals.
From Flocq Require Import Core.Raux.
From Verif Require Import Base RBase Trig DiskBase FpsModel FpaModel VdModel.
From Verif Require RectModel.
Import ListNotations.
Open Scope R_scope.

(** PadRowLayout2D.h 34-35 *)
Definition CARTESIAN : Z := 1.
Definition POLAR : Z := 2.

(** an extent: a vector of four doubles, (xMin,xMax,yMin,yMax) or (rMin,rMax,phiMin,phiMax) *)
Record ext4 := mkE { e0 : R; e1 : R; e2 : R; e3 : R }.

(** ** The pad layout of a module: any of the four implementations *)
Inductive layout2d :=
| LRect (l : RectModel.rect)
| LFps (l : fps)
| LFpa (l : fpa)
| LVd (l : vd).

(** getCoordinateType: RectangularPadRowLayout.h 127, FixedDiskLayoutBase.h 37 *)
Definition lay_type (p : layout2d) : Z := match p with LRect _ => CARTESIAN | _ => POLAR end.
(** getPlaneExtent *)
Definition lay_extent (p : layout2d) : ext4 :=
  match p with
  | LRect l => mkE (RectModel.ext0 l) (RectModel.ext1 l) (RectModel.ext2 l) (RectModel.ext3 l)
  | LFps l => mkE (f_rMin l) (f_rMax l) 0 (f_phiMax l)
  | LFpa l => mkE (p_rMin l) (p_rMax l) (p_phiMin l) (p_phiMax l)
  | LVd l => mkE (v_e0 l) (v_e1 l) (v_e2 l) (v_e3 l)
  end.
(** clone *)
Definition lay_clone (p : layout2d) : layout2d :=
  match p with
  | LRect l => LRect (RectModel.clone l)
  | LFps l => LFps (fps_clone l)
  | LFpa l => LFpa (fpa_clone l)
  | LVd l => LVd (vd_clone l)
  end.
(** getNearestPad; [None]: the row search of the rectangular layout has not ended within the fuel *)
Definition lay_nearest (fuel : nat) (p : layout2d) (c0 c1 : R) : option (result Z) :=
  match p with
  | LRect l => RectModel.getNearestPad fuel l c0 c1
  | LFps l => Some (fps_getNearestPad l c0 c1)
  | LFpa l => Some (fpa_getNearestPad l c0 c1)
  | LVd l => Some (vd_getNearestPad l c0 c1)
  end.
(** isInsidePad(c0,c1,padIndex) *)
Definition lay_inside (p : layout2d) (c0 c1 : R) (i : Z) : result bool :=
  match p with
  | LRect l => RectModel.isInsidePad l c0 c1 i
  | LFps l => fps_isInsidePad l c0 c1 i
  | LFpa l => Ok (fpa_isInsidePad l c0 c1 i)
  | LVd l => vd_isInsidePad l c0 c1 i
  end.
(** getDistanceToPad *)
Definition lay_distance (p : layout2d) (c0 c1 : R) (i : Z) : result R :=
  match p with
  | LRect l => RectModel.getDistanceToPad l c0 c1 i
  | LFps l => fps_getDistanceToPad l c0 c1 i
  | LFpa l => Ok (fpa_getDistanceToPad l c0 c1 i)
  | LVd l => vd_getDistanceToPad l c0 c1 i
  end.
(** getPadCenter *)
Definition lay_center (p : layout2d) (i : Z) : result (R * R) :=
  match p with
  | LRect l => RectModel.getPadCenter l i
  | LFps l => fps_getPadCenter l i
  | LFpa l => Ok (fpa_getPadCenter l i)
  | LVd l => vd_getPadCenter l i
  end.

(** ** Data members, TPCModuleImpl.h 26-46 *)
Record module := mkM {
  m_planeExtent : ext4; m_moduleExtent : ext4; m_localExtent : ext4;
  m_layout : layout2d; m_freq : R;
  m_off0 : R; m_off1 : R; m_offc0 : R; m_offc1 : R;
  m_z : R; m_angle : R; m_cos : R; m_sin : R;
  m_type : Z; m_id : Z; m_border : R; m_lig : bool; m_zset : bool }.

(** checkLocalIsGlobal, TPCModuleImpl.cc 1532-1546 *)
Definition check_lig (type : Z) (p : layout2d) (angle off0 off1 z : R) : bool :=
  ((type =? lay_type p)%Z && Reqb angle 0 && Reqb off0 0 && Reqb off1 0 && Rltb 0 z)%bool.

(** constructor, TPCModuleImpl.cc 1167-1200: the extents are those of the layout, even if the TPC
    has the other coordinate type *)
Definition new_module (id : Z) (p : layout2d) (type : Z) (freq : R) : module :=
  mkM (lay_extent p) (lay_extent p) (lay_extent p) p freq 0 0 0 0 1 0 1 0 type id 0
      (check_lig type p 0 0 0 1) false.

(** copy constructor, clone, copy_and_assign, TPCModuleImpl.cc 1202-1245 *)
Definition module_clone (m : module) : module :=
  mkM (m_planeExtent m) (m_moduleExtent m) (m_localExtent m) (lay_clone (m_layout m)) (m_freq m)
      (m_off0 m) (m_off1 m) (m_offc0 m) (m_offc1 m) (m_z m) (m_angle m) (m_cos m) (m_sin m)
      (m_type m) (m_id m) (m_border m) (m_lig m) (m_zset m).

(** ** Coordinate transforms *)

(** globalToLocal, TPCModuleImpl.cc 11-106.  The condition in 47-48 tests [_offset_cartesian[0]]
    twice; the wrap in 53 adds instead of subtracting. *)
Definition globalToLocal (m : module) (c0 c1 : R) : result (R * R) :=
  if m_lig m then Ok (c0, c1)                                                     (* 13-16 *)
  else if (m_type m =? POLAR)%Z then
    let c1 := if Rleb (m_z m) 0 then PI - c1 else c1 in                           (* 25 *)
    if ((lay_type (m_layout m) =? POLAR)%Z && Reqb (m_offc0 m) 0 && Reqb (m_offc0 m) 0)%bool then
      let a := c1 - m_angle m in                                                  (* 50 *)
      let a := if Rltb a 0 then a + 2 * PI else a in                              (* 52 *)
      let a := if Rltb (2 * PI) a then a + 2 * PI else a in                       (* 53 *)
      Ok (c0, a)
    else
      let x := c0 * cos c1 in let y := c0 * sin c1 in                             (* 59-60 *)
      let xp := x - m_offc0 m in let yp := y - m_offc1 m in                       (* 74-75 *)
      let xr := xp * m_cos m + yp * m_sin m in                                    (* 78 *)
      let yr := yp * m_cos m - xp * m_sin m in                                    (* 79 *)
      if (lay_type (m_layout m) =? POLAR)%Z then
        let phi := atan2 yr xr in
        Ok (sqrt (xr * xr + yr * yr), if Rltb phi 0 then phi + 2 * PI else phi)   (* 86-92 *)
      else Ok (xr, yr)                                                            (* 97-98 *)
  else if (m_type m =? CARTESIAN)%Z then
    let c0 := if Rleb (m_z m) 0 then - c0 else c0 in                              (* 28 *)
    let xp := c0 - m_offc0 m in let yp := c1 - m_offc1 m in
    let xr := xp * m_cos m + yp * m_sin m in
    let yr := yp * m_cos m - xp * m_sin m in
    if (lay_type (m_layout m) =? POLAR)%Z then
      let phi := atan2 yr xr in
      Ok (sqrt (xr * xr + yr * yr), if Rltb phi 0 then phi + 2 * PI else phi)
    else Ok (xr, yr)
  else Throw (EGear "TPCModuleImpl::globalToLocal: unkown coorinate type").       (* 31, 70 *)

(** localToGlobal, TPCModuleImpl.cc 109-193 *)
Definition localToGlobal (m : module) (c0 c1 : R) : result (R * R) :=
  if m_lig m then Ok (c0, c1)                                                     (* 111-114 *)
  else if ((lay_type (m_layout m) =? POLAR)%Z && (m_type m =? POLAR)%Z
           && Reqb (m_offc0 m) 0 && Reqb (m_offc1 m) 0)%bool then                 (* 127-129 *)
    let phi := c1 + m_angle m in                                                  (* 123 *)
    let phi := if Rleb (m_z m) 0 then PI - phi else phi in                        (* 132-135 *)
    let phi := if Rltb phi 0 then phi + 2 * PI else phi in                        (* 138 *)
    let phi := if Rltb (2 * PI) phi then phi - 2 * PI else phi in                 (* 139 *)
    Ok (c0, phi)
  else
    let xp := if (lay_type (m_layout m) =? POLAR)%Z then c0 * cos (c1 + m_angle m)
              else c0 * m_cos m - c1 * m_sin m in                                 (* 143, 149 *)
    let yp := if (lay_type (m_layout m) =? POLAR)%Z then c0 * sin (c1 + m_angle m)
              else c1 * m_cos m + c0 * m_sin m in                                 (* 144, 150 *)
    let x := xp + m_offc0 m in                                                    (* 158 *)
    let y := yp + m_offc1 m in                                                    (* 159 *)
    let x := if Rleb (m_z m) 0 then - x else x in                                 (* 162-165 *)
    if (m_type m =? POLAR)%Z then
      let phi := atan2 y x in
      Ok (sqrt (x * x + y * y), if Rltb phi 0 then phi + 2 * PI else phi)         (* 173-179 *)
    else if (m_type m =? CARTESIAN)%Z then Ok (x, y)                              (* 184-185 *)
    else Throw (EGear "TPCModuleImpl::localToGlobal: unkown coorinate type").     (* 189 *)

(** ** Extents *)

(** local module extent, TPCModuleImpl.cc 199-257.  A polar layout with inner radius 0 and positive
    outer radius makes line 220 divide by zero; inf is not a real number, so that case is [UB]
    here. *)
Definition local_extent (p : layout2d) (border : R) : result ext4 :=
  let e := lay_extent p in
  if Reqb border 0 then Ok e                                                      (* 199-202 *)
  else if (lay_type p =? POLAR)%Z then
    let rMin := e0 e - border in
    let r0 := if Rleb 0 rMin then rMin else 0 in                                  (* 210-211 *)
    let r1 := e1 e + border in                                                    (* 212 *)
    rbind (if Rltb 0 (e1 e) then (if Reqb (e0 e) 0 then UB else Ok (border / e0 e))  (* 216-221 *)
           else Ok PI) (fun phiBorder =>                                          (* 224 *)
    let phiMin := e2 e - phiBorder in                                             (* 227 *)
    let phiMax := e3 e + phiBorder in                                             (* 228 *)
    if Rltb (2 * PI) (phiMax - phiMin) then                                       (* 231 *)
      let phiBorder := (2 * PI - phiMax + phiMin) / 2 in                          (* 234 *)
      Ok (mkE r0 r1 (e2 e - phiBorder) (e3 e + phiBorder))                        (* 235-236 *)
    else Ok (mkE r0 r1 phiMin phiMax))
  else Ok (mkE (e0 e - border) (e1 e + border) (e2 e - border) (e3 e + border)).  (* 247-250 *)

(** the loops that look for a minimum or maximum, e.g. TPCModuleImpl.cc 333-339 *)
Definition lower (m v : R) : R := if Rltb v m then v else m.
Definition upper (m v : R) : R := if Rltb m v then v else m.

(** calculateGlobalExtentCartesianCartesian, TPCModuleImpl.cc 315-348 *)
Definition extent_cc (m : module) (l : ext4) : result ext4 :=
  rbind (localToGlobal m (e0 l) (e2 l)) (fun a =>                                 (* 319 *)
  rbind (localToGlobal m (e0 l) (e3 l)) (fun b =>                                 (* 327 *)
  rbind (localToGlobal m (e1 l) (e2 l)) (fun c =>                                 (* 328 *)
  rbind (localToGlobal m (e1 l) (e3 l)) (fun d =>                                 (* 329 *)
  Ok (mkE (lower (lower (lower (fst a) (fst b)) (fst c)) (fst d))
          (upper (upper (upper (fst a) (fst b)) (fst c)) (fst d))
          (lower (lower (lower (snd a) (snd b)) (snd c)) (snd d))
          (upper (upper (upper (snd a) (snd b)) (snd c)) (snd d))))))).

(** is the local direction [a] in the active sector, tried in two turns: TPCModuleImpl.cc 385-392 *)
Definition other_turn (a : R) : R := if Rltb a 0 then a + 2 * PI else a - 2 * PI.
Definition in_open (l : ext4) (a : R) : bool := (Rltb (e2 l) a && Rltb a (e3 l))%bool.
Definition in_active (l : ext4) (a : R) : bool := (in_open l a || in_open l (other_turn a))%bool.

(** calculateGlobalExtentCartesianPolar, TPCModuleImpl.cc 350-461 *)
Definition extent_cp (m : module) (l : ext4) : result ext4 :=
  rbind (extent_cc m l) (fun e =>                                                 (* 357-376 *)
  rbind (localToGlobal m 0 0) (fun o =>                                           (* 381 *)
  rbind (globalToLocal m (fst o) (snd o + e1 l)) (fun top =>                      (* 382-383 *)
  rbind (globalToLocal m (fst o) (snd o - e1 l)) (fun bottom =>                   (* 401-402 *)
  rbind (globalToLocal m (fst o + e1 l) (snd o)) (fun right =>                    (* 420-421 *)
  rbind (globalToLocal m (fst o - e1 l) (snd o)) (fun left =>                     (* 436-437 *)
  Ok (mkE (if in_active l (snd left) then fst o - e1 l else e0 e)
          (if in_active l (snd right) then fst o + e1 l else e1 e)
          (if in_active l (snd bottom) then snd o - e1 l else e2 e)
          (if in_active l (snd top) then snd o + e1 l else e3 e)))))))).

(** fmod(x, 2*M_PI): the remainder has the sign of x *)
Definition fmod2pi (x : R) : R := x - 2 * PI * IZR (Ztrunc (x / (2 * PI))).

(** no offset: TPCModuleImpl.cc 466-498 *)
Definition extent_pp_centred (m : module) (l : ext4) : ext4 :=
  let phiMin := if Rltb 0 (m_z m) then e2 l + m_angle m else PI - e3 l - m_angle m in  (* 473, 478 *)
  let phiMax := if Rltb 0 (m_z m) then e3 l + m_angle m else PI - e2 l - m_angle m in  (* 474, 479 *)
  let phiMax := wrap_up 0 (wrap_down (2 * PI) phiMax) in                          (* 483-484 *)
  let phiMin := wrap_up (phiMax - 2 * PI) (wrap_down phiMax phiMin) in            (* 487-488 *)
  mkE (e0 l) (e1 l) phiMin phiMax.

(** the smallest global radius, TPCModuleImpl.cc 522-621: [o] is the global origin in local
    coordinates, [ed] the four corners in global coordinates *)
Definition foot_radius (o : R * R) (edge : R) : R :=
  fst o * (cos (snd o) * cos edge + sin (snd o) * sin edge).                      (* 584, 604 *)
Definition foot_distance (o : R * R) (edge : R) : R :=
  Rabs (fst o * (cos (snd o) * sin edge - sin (snd o) * cos edge)).               (* 585, 605 *)
Definition foot_lower (l : ext4) (o : R * R) (edge rMin : R) : R :=
  if (Rltb (e0 l) (foot_radius o edge) && Rltb (foot_radius o edge) (e1 l)
      && Rltb (foot_distance o edge) rMin)%bool then foot_distance o edge else rMin.  (* 591-597 *)
Definition pp_rMin (l : ext4) (o : R * R) (d0 d1 d2 d3 : R) : R :=
  if in_active l (fmod2pi (snd o)) then                                           (* 524-534 *)
    if Rltb (fst o) (e0 l) then e0 l - fst o                                      (* 543-546 *)
    else if Rltb (e1 l) (fst o) then fst o - e1 l                                 (* 548-551 *)
    else 0                                                                        (* 553 *)
  else
    let rMin := lower (lower (lower d0 d1) d2) d3 in                              (* 558-564 *)
    if Rltb (e0 l) (fst o) then                                                   (* 569 *)
      foot_lower l o (e3 l) (foot_lower l o (e2 l) rMin)                          (* 578-618 *)
    else rMin.
(** the largest global radius, TPCModuleImpl.cc 625-650 *)
Definition pp_rMax (l : ext4) (o : R * R) (d0 d1 d2 d3 : R) : R :=
  if in_active l (fmod2pi (snd o + PI)) then fst o + e1 l                         (* 639 *)
  else upper (upper (upper d0 d1) d2) d3.                                         (* 644-649 *)

(** std::numeric_limits<double>::max() and min(), TPCModuleImpl.cc 654-655 *)
Definition dbl_max : R := IZR (2 ^ 1024 - 2 ^ 971).
Definition dbl_min : R := / IZR (2 ^ 1022).

(** [while (phiMin > phiMax) phiMin -= 2pi] and the two loops forcing the pair to +-2pi, e.g.
    TPCModuleImpl.cc 861-874 *)
Definition pair_below (a b : R) : R * R := (wrap_down b a, b).
Definition pair_force (p : R * R) : R * R :=
  let d := wrap_down (2 * PI) (snd p) - snd p in
  let a := fst p + d in let b := snd p + d in
  let u := wrap_up (- 2 * PI) a - a in (a + u, b + u).
(** angles forced to the turn below [top] or above [bot], e.g. TPCModuleImpl.cc 890-894 and 959-963 *)
Definition below (top a : R) : R := wrap_down top (wrap_up (top - 2 * PI) a).
Definition above (bot a : R) : R := wrap_down (bot + 2 * PI) (wrap_up bot a).
(** 908-912 has the loops in the other order *)
Definition above' (bot a : R) : R := wrap_up bot (wrap_down (bot + 2 * PI) a).
(** the special case of B1 and B3, TPCModuleImpl.cc 1053-1070 *)
Definition pair_no_sight (p : R * R) : R * R :=
  if Rltb (snd p - fst p) PI then (0, 2 * PI) else pair_force p.

(** phiMin and phiMax for a global origin closer than the local outer radius, TPCModuleImpl.cc
    835-1149; [a0..a3] are the global angles of the corners *)
Definition pp_phi_inside (m : module) (l : ext4) (o : R * R) (a0 a1 a2 a3 : R) : R * R :=
  let pos := Rltb 0 (m_z m) in
  let g := wrap_down (e2 l + 2 * PI) (wrap_up (e2 l) (snd o)) in                  (* 835-839 *)
  if Rltb (e3 l - e2 l) PI then                                                   (* A, 842 *)
    if Rltb g (e3 l) then                                                         (* A1, 844 *)
      if Rleb (fst o) (e0 l) then                                                 (* A1a, 846 *)
        pair_force (if pos then pair_below a0 a1 else pair_below a1 a0)
      else (0, 2 * PI)                                                            (* A1b, 878 *)
    else if Rltb g (e2 l + PI) then                                               (* A2, 881 *)
      if pos then (lower (below a3 a0) (below a3 a1), a3)                         (* 888-902 *)
      else (a3, upper (above' a3 a0) (above' a3 a1))                              (* 906-920 *)
    else if Rltb g (e3 l + PI) then                                               (* A3, 923 *)
      pair_force (if pos then pair_below a2 a3 else pair_below a3 a2)             (* 925-951 *)
    else                                                                          (* A4, 953 *)
      if pos then (a2, upper (above a2 a0) (above a2 a1))                         (* 957-971 *)
      else (lower (below a2 a0) (below a2 a1), a2)                                (* 975-989 *)
  else                                                                            (* B, 993 *)
    if Rltb (e3 l) g then                                                         (* B4, 995 *)
      pair_force (if pos then pair_below a2 a3 else pair_below a3 a2)             (* 997-1022 *)
    else if Rleb (fst o) (e0 l) then                                              (* 1026 *)
      if Rltb g (e3 l - PI) then                                                  (* B1, 1029 *)
        pair_no_sight (if pos then pair_below a0 a3 else pair_below a3 a0)        (* 1031-1070 *)
      else if Rltb g (e2 l + PI) then                                             (* B2, 1072 *)
        pair_force (if pos then pair_below a0 a1 else pair_below a1 a0)           (* 1074-1097 *)
      else if Rltb g (e3 l + PI) then                                             (* B3, 1099 *)
        pair_no_sight (if pos then pair_below a2 a1 else pair_below a1 a2)        (* 1101-1139 *)
      else (dbl_max, dbl_min)                                                     (* 654-655 *)
    else (0, 2 * PI).                                                             (* 1144 *)

(** phiMin and phiMax for a global origin outside, TPCModuleImpl.cc 668-805.  [asin (rMax / d)] with
    [d = 0] is [UB] here (nan in the program). *)
Definition pp_phi_outside (m : module) (l : ext4) (o : R * R) (a0 a1 a2 a3 : R) : result (R * R) :=
  let pos := Rltb 0 (m_z m) in
  if Reqb (fst o) 0 then UB
  else
    rbind (localToGlobal m 0 0) (fun og =>                                        (* 672 *)
    let tmin := snd og - asin (e1 l / fst o) in                                   (* 675 *)
    let tmax := snd og + asin (e1 l / fst o) in                                   (* 676 *)
    let w a := wrap_down (tmin + 2 * PI) (wrap_up tmin a) in                      (* 682-689 *)
    let lo := lower (lower (lower (w a0) (w a1)) (w a2)) (w a3) in
    let hi := upper (upper (upper (w a0) (w a1)) (w a2)) (w a3) in
    let r := sqrt (fst og * fst og - e1 l * e1 l) in                              (* 696-698 *)
    let wl a := wrap_down (e2 l + 2 * PI) (wrap_up (e2 l) a) in                   (* 704-707 *)
    rbind (globalToLocal m r (if pos then tmin else tmax)) (fun t1 =>             (* 696-700 *)
    rbind (globalToLocal m r (if pos then tmax else tmin)) (fun t2 =>             (* 753-757 *)
    let in1 := Rltb (wl (snd t1)) (e3 l) in                                       (* 711 *)
    let in2 := Rltb (wl (snd t2)) (e3 l) in                                       (* 767 *)
    Ok (if pos then (if in1 then tmin else lo, if in2 then tmax else hi)          (* 716-724, 772-791 *)
        else (if in2 then tmin else lo, if in1 then tmax else hi))))).

(** calculateGlobalExtentPolarPolar, TPCModuleImpl.cc 463-1165 *)
Definition extent_pp (m : module) (l : ext4) : result ext4 :=
  if Reqb (m_off0 m) 0 then Ok (extent_pp_centred m l)                            (* 466 *)
  else
    rbind (globalToLocal m 0 0) (fun o =>                                         (* 506 *)
    rbind (localToGlobal m (e0 l) (e2 l)) (fun a =>                               (* 511 *)
    rbind (localToGlobal m (e0 l) (e3 l)) (fun b =>                               (* 512 *)
    rbind (localToGlobal m (e1 l) (e2 l)) (fun c =>                               (* 513 *)
    rbind (localToGlobal m (e1 l) (e3 l)) (fun d =>                               (* 514 *)
    rmap (fun p => mkE (pp_rMin l o (fst a) (fst b) (fst c) (fst d))
                       (pp_rMax l o (fst a) (fst b) (fst c) (fst d)) (fst p) (snd p))
         (if Rleb (e1 l) (fst o) then pp_phi_outside m l o (snd a) (snd b) (snd c) (snd d)   (* 668 *)
          else Ok (pp_phi_inside m l o (snd a) (snd b) (snd c) (snd d)))))))).

(** the dispatch at the end of convertLocalPlaneToGlobalPlaneExtend, TPCModuleImpl.cc 261-309 *)
Definition global_extent (m : module) (l : ext4) : result ext4 :=
  if (m_type m =? POLAR)%Z then
    if (lay_type (m_layout m) =? POLAR)%Z then extent_pp m l                      (* 269-270 *)
    else Throw (ENotImplemented "TPCModuleImpl::convertLocalPlaneToGlobalPlaneExtend: not implemented for global polar/cartesian coordinates.")
  else if (m_type m =? CARTESIAN)%Z then
    if (lay_type (m_layout m) =? POLAR)%Z then extent_cp m l                      (* 292-293 *)
    else extent_cc m l                                                            (* 298-299 *)
  else Throw (EGear "TPCModuleImpl::convertLocalPlaneToGlobalPlaneExtend(): unkown coorinate type").

Definition set_local (m : module) (l : ext4) : module :=
  mkM (m_planeExtent m) (m_moduleExtent m) l (m_layout m) (m_freq m) (m_off0 m) (m_off1 m) (m_offc0 m)
      (m_offc1 m) (m_z m) (m_angle m) (m_cos m) (m_sin m) (m_type m) (m_id m) (m_border m) (m_lig m)
      (m_zset m).
Definition set_extents (m : module) (plane mod_ : ext4) : module :=
  mkM plane mod_ (m_localExtent m) (m_layout m) (m_freq m) (m_off0 m) (m_off1 m) (m_offc0 m)
      (m_offc1 m) (m_z m) (m_angle m) (m_cos m) (m_sin m) (m_type m) (m_id m) (m_border m) (m_lig m)
      (m_zset m).

(** convertLocalPlaneToGlobalPlaneExtend, TPCModuleImpl.cc 196-313: an exception leaves the local
    extent already written *)
Definition convert (m : module) : sres module unit :=
  match local_extent (m_layout m) (m_border m) with
  | Ok l =>
      let m := set_local m l in
      match rbind (global_extent m l) (fun me =>
            rmap (fun pe => (me, pe)) (global_extent m (lay_extent (m_layout m)))) with
      | Ok (me, pe) => SOk (set_extents m pe me) tt
      | Throw e => SThrow m e
      | UB => SUB
      end
  | Throw e => SThrow m e
  | UB => SUB
  end.

(** ** Setters *)
(** setBorderWidth, TPCModuleImpl.cc 1473-1477 *)
Definition setBorderWidth (m : module) (b : R) : sres module unit :=
  convert (mkM (m_planeExtent m) (m_moduleExtent m) (m_localExtent m) (m_layout m) (m_freq m) (m_off0 m)
               (m_off1 m) (m_offc0 m) (m_offc1 m) (m_z m) (m_angle m) (m_cos m) (m_sin m) (m_type m)
               (m_id m) b (m_lig m) (m_zset m)).
(** setOffset, TPCModuleImpl.cc 1479-1504: an unknown coordinate type throws after _offset is set *)
Definition setOffset (m : module) (x_r y_phi : R) : sres module unit :=
  if (m_type m =? POLAR)%Z then
    convert (mkM (m_planeExtent m) (m_moduleExtent m) (m_localExtent m) (m_layout m) (m_freq m) x_r y_phi
                 (x_r * cos y_phi) (x_r * sin y_phi) (m_z m) (m_angle m) (m_cos m) (m_sin m) (m_type m)
                 (m_id m) (m_border m)
                 (check_lig (m_type m) (m_layout m) (m_angle m) x_r y_phi (m_z m)) (m_zset m))
  else if (m_type m =? CARTESIAN)%Z then
    convert (mkM (m_planeExtent m) (m_moduleExtent m) (m_localExtent m) (m_layout m) (m_freq m) x_r y_phi
                 x_r y_phi (m_z m) (m_angle m) (m_cos m) (m_sin m) (m_type m)
                 (m_id m) (m_border m)
                 (check_lig (m_type m) (m_layout m) (m_angle m) x_r y_phi (m_z m)) (m_zset m))
  else SThrow (mkM (m_planeExtent m) (m_moduleExtent m) (m_localExtent m) (m_layout m) (m_freq m) x_r y_phi
                   (m_offc0 m) (m_offc1 m) (m_z m) (m_angle m) (m_cos m) (m_sin m) (m_type m)
                   (m_id m) (m_border m) (m_lig m) (m_zset m))
              (EGear "TPCModuleImpl::globalToLocal: unkown coorinate type").
(** setZPosition, TPCModuleImpl.cc 1506-1510: neither the flag _localIsGlobal nor the extents are
    recomputed *)
Definition setZPosition (m : module) (z : R) : sres module unit :=
  SOk (mkM (m_planeExtent m) (m_moduleExtent m) (m_localExtent m) (m_layout m) (m_freq m) (m_off0 m)
           (m_off1 m) (m_offc0 m) (m_offc1 m) z (m_angle m) (m_cos m) (m_sin m) (m_type m)
           (m_id m) (m_border m) (m_lig m) true) tt.
(** setAngle, TPCModuleImpl.cc 1512-1520 *)
Definition setAngle (m : module) (a : R) : sres module unit :=
  convert (mkM (m_planeExtent m) (m_moduleExtent m) (m_localExtent m) (m_layout m) (m_freq m) (m_off0 m)
               (m_off1 m) (m_offc0 m) (m_offc1 m) (m_z m) a (cos a) (sin a) (m_type m) (m_id m) (m_border m)
               (check_lig (m_type m) (m_layout m) a (m_off0 m) (m_off1 m) (m_z m)) (m_zset m)).
(** setReadoutFrequency, TPCModuleImpl.cc 1522-1530 *)
Definition setReadoutFrequency (m : module) (f : R) : sres module unit :=
  SOk (mkM (m_planeExtent m) (m_moduleExtent m) (m_localExtent m) (m_layout m) f (m_off0 m) (m_off1 m)
           (m_offc0 m) (m_offc1 m) (m_z m) (m_angle m) (m_cos m) (m_sin m) (m_type m) (m_id m) (m_border m)
           (m_lig m) (m_zset m)) tt.

(** ** Getters *)
(** getZPosition, TPCModuleImpl.cc 1548-1553; [None] is TPCModule::NoZPositionException *)
Definition getZPosition (m : module) : option R := if m_zset m then Some (m_z m) else None.
(** TPCModuleImpl.h 179, 189, 172, 233, 238, 253, 267, 287, 293 *)
Definition getModuleExtent (m : module) : ext4 := m_moduleExtent m.
Definition getLocalModuleExtent (m : module) : ext4 := m_localExtent m.
Definition module_getPlaneExtent (m : module) : ext4 := m_planeExtent m.
Definition getReadoutFrequency (m : module) : R := m_freq m.
Definition getOffset (m : module) : R * R := (m_off0 m, m_off1 m).
Definition getAngle (m : module) : R := m_angle m.
Definition getModuleID (m : module) : Z := m_id m.
Definition getBorderWidth (m : module) : R := m_border m.
Definition getTPCCoordinateType (m : module) : Z := m_type m.

(** getPadCenter, TPCModuleImpl.cc 1252-1255 *)
Definition module_getPadCenter (m : module) (i : Z) : result (R * R) :=
  rbind (lay_center (m_layout m) i) (fun c => localToGlobal m (fst c) (snd c)).

(** option (result A): a computation with fuel *)
Definition obind {A B} (r : option (result A)) (f : A -> option (result B)) : option (result B) :=
  match r with None => None | Some (Ok a) => f a | Some (Throw e) => Some (Throw e) | Some UB => Some UB end.

(** getNearestPad, TPCModuleImpl.cc 1279-1282 *)
Definition module_getNearestPad (fuel : nat) (m : module) (c0 c1 : R) : option (result Z) :=
  obind (Some (globalToLocal m c0 c1)) (fun t => lay_nearest fuel (m_layout m) (fst t) (snd t)).
(** isInsidePad(c0,c1,padIndex), TPCModuleImpl.cc 1284-1287 *)
Definition module_isInsidePad (m : module) (c0 c1 : R) (i : Z) : result bool :=
  rbind (globalToLocal m c0 c1) (fun t => lay_inside (m_layout m) (fst t) (snd t) i).

(** One of the loops [while (phi >= hi) phi -= 2*M_PI] (TPCModuleImpl.cc 1300, 1321, 1354) executed
    for at most [fuel] turns, and the value it ends with (TpcModuleProofs.loop_down_ge_result) *)
Fixpoint loop_down_ge (fuel : nat) (hi phi : R) : option R :=
  if Rleb hi phi then match fuel with O => None | S f => loop_down_ge f hi (phi - 2 * PI) end
  else Some phi.
Definition wrap_down_ge (hi phi : R) : R := phi - 2 * PI * IZR (Z.max 0 (Zfloor ((phi - hi) / (2 * PI)) + 1)).
(** the wrapping of the local angle, TPCModuleImpl.cc 1292-1302, 1313-1323, 1346-1356 *)
Definition wrap_local (m : module) (c1 : R) : R :=
  if (lay_type (m_layout m) =? POLAR)%Z
  then wrap_down_ge (e2 (m_localExtent m) + 2 * PI) (wrap_up (e2 (m_localExtent m)) c1)
  else c1.

(** isInsidePad(c0,c1), TPCModuleImpl.cc 1289-1306 *)
Definition module_isInsideAnyPad (fuel : nat) (m : module) (c0 c1 : R) : option (result bool) :=
  obind (Some (globalToLocal m c0 c1)) (fun t =>
  let a := wrap_local m (snd t) in
  obind (lay_nearest fuel (m_layout m) (fst t) a) (fun i =>                       (* 1304 *)
  Some (lay_inside (m_layout m) (fst t) a i))).                                   (* 1305 *)

(** isInsideModule, TPCModuleImpl.cc 1308-1333 *)
Definition isInsideModule (m : module) (c0 c1 : R) : result bool :=
  rmap (fun t =>
    let a := wrap_local m (snd t) in let l := m_localExtent m in
    (Rleb (e0 l) (fst t) && Rleb (fst t) (e1 l) && Rleb (e2 l) a && Rleb a (e3 l))%bool)
  (globalToLocal m c0 c1).

(** getDistanceToPad, TPCModuleImpl.cc 1335-1339 *)
Definition module_getDistanceToPad (m : module) (c0 c1 : R) (i : Z) : result R :=
  rbind (globalToLocal m c0 c1) (fun t => lay_distance (m_layout m) (fst t) (snd t) i).

(** distance to a straight radial edge, TPCModuleImpl.cc 1419-1436 and 1440-1456 *)
Definition module_edge_distance (l : ext4) (r phi edge : R) : R :=
  let r_intersect := r * (cos phi * cos edge + sin phi * sin edge) in
  let mm := r * (cos phi * sin edge - sin phi * cos edge) in
  if Rltb r_intersect (e0 l) then sqrt (r * r + e0 l * e0 l - 2 * e0 l * r_intersect)
  else if Rltb (e1 l) r_intersect then sqrt (r * r + e1 l * e1 l - 2 * e1 l * r_intersect)
  else Rabs mm.

(** getDistanceToModule, TPCModuleImpl.cc 1341-1465 *)
Definition getDistanceToModule (m : module) (c0 c1 : R) : result R :=
  rmap (fun t =>
    let x := fst t in let y := wrap_local m (snd t) in let l := m_localExtent m in
    if (Rleb (e2 l) y && Rleb y (e3 l))%bool then                                 (* 1361 *)
      if Rltb x (e0 l) then e0 l - x else if Rleb x (e1 l) then 0 else x - e1 l   (* 1363-1374 *)
    else if (lay_type (m_layout m) =? CARTESIAN)%Z then
      if Rltb y (e2 l) then
        if Rltb x (e0 l) then sqrt ((e0 l - x) * (e0 l - x) + (e2 l - y) * (e2 l - y))
        else if Rleb x (e1 l) then e2 l - y
        else sqrt ((x - e1 l) * (x - e1 l) + (e2 l - y) * (e2 l - y))
      else
        if Rltb x (e0 l) then sqrt ((e0 l - x) * (e0 l - x) + (y - e3 l) * (y - e3 l))
        else if Rleb x (e1 l) then y - e3 l
        else sqrt ((x - e1 l) * (x - e1 l) + (y - e3 l) * (y - e3 l))
    else
      let d1 := module_edge_distance l x y (e2 l) in
      let d2 := module_edge_distance l x y (e3 l) in
      if Rltb d1 d2 then d1 else d2)                                              (* 1458 *)
  (globalToLocal m c0 c1).
