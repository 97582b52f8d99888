(** Model of TGeoGearDistanceProperties (src/geartgeo/TGeoGearDistanceProperties.cc).
    ROOT's navigator is not modelled: what it reports on the way from one point to another is a parameter
    ([geometry]).  Simplifications: doubles are real numbers; the navigator reports the same for the same
    two points, and leaves the world after finitely many steps; the track objects (AddTrack, AddPoint,
    ClearTracks) are left out, since nothing reads them. *)
From Coq Require Import ZArith List Bool Reals String.
From Verif Require Import Base RBase VecModel.
Import ListNotations.
Open Scope R_scope.

(** What is read from a TGeoNode: its name, and name, interaction and radiation length of its material. *)
Record gnode := mkNode { gn_vol : string; gn_mat : string; gn_int : R; gn_rad : R }.
(** One call of FindNextBoundaryAndStep: the node returned, IsOutside, GetCurrentPoint, GetLastPoint and
    GetStep afterwards. *)
Record nav := mkNav { nv_node : option gnode; nv_out : bool; nv_pos : vec; nv_prev : vec; nv_len : R }.
(** The navigator between two points: None when InitTrack finds no node, otherwise the first node, and the
    calls one after the other, each with the call that follows it if the step is too short (line 79).
    At the end of the list IsOutside() is true. *)
Definition geometry := vec -> vec -> option (gnode * list (nav * nav)).

(** #define MINSTEP, line 10 *)
Definition MINSTEP : R := 1 / 100000.
(** The data members, TGeoGearDistanceProperties.h 70-80 *)
Record dprops := mkDP { d_p0 : vec; d_p1 : vec; d_vol : list string; d_mat : list string;
                        d_dist : list R; d_int : list R; d_rad : list R }.
Definition new_dprops : dprops := mkDP vzero vzero [] [] [] [] [].
(** the five push_back, lines 105-111 and 116-122 *)
Definition push (s : dprops) (n : gnode) (len : R) : dprops :=
  mkDP (d_p0 s) (d_p1 s) (d_vol s ++ [gn_vol n]) (d_mat s ++ [gn_mat n])
       (d_dist s ++ [len]) (d_int s ++ [gn_int n]) (d_rad s ++ [gn_rad n]).
(** the distance of two points, lines 91 and 100-102 *)
Definition vdistance (a b : vec) : R := vr (vsub a b).
(** the loop, lines 58-125.  [n1]: node1, a pointer that may be null.  SetCurrentPoint (line 77) does not
    change the step that GetStep returns, and line 78 asks for it before the second step is made. *)
Fixpoint steps (p0 p1 : vec) (n1 : option gnode) (l : list (nav * nav)) (s : dprops) : result dprops :=
  match l with
  | [] => Ok s                                                          (* 58 *)
  | (v, v2) :: l' =>
      match nv_node v with
      | None => Ok s                                                    (* 64 *)
      | Some _ =>
          if nv_out v then Ok s                                         (* 64 *)
          else
            let short := Rltb (nv_len v) MINSTEP in                     (* 75 *)
            let w := if short then v2 else v in                         (* 79-83 *)
            match n1 with
            | None => UB                                                (* 106, 117: node1-> *)
            | Some n =>
                if Rltb (vdistance p1 p0) (vdistance (nv_pos w) p0)     (* 98 *)
                then Ok (push s n (vdistance p1 (nv_prev w)))           (* 100-112 *)
                else
                  let s' := push s n (nv_len v) in                      (* 116-122 *)
                  if nv_out w then Ok s'                                (* 58, after a second step *)
                  else steps p0 p1 (nv_node w) l' s'                    (* 124 *)
            end
      end
  end.
(** beamOn, lines 19-128 *)
Definition beamOn (g : geometry) (p0 p1 : vec) (s : dprops) : result unit * dprops :=
  if (veqb p0 (d_p0 s) && veqb p1 (d_p1 s))%bool then (Ok tt, s)        (* 22 *)
  else
    let s0 := mkDP p0 p1 [] [] [] [] [] in                              (* 25-31 *)
    match g p0 p1 with
    | None => (Throw (EGear "OutsideGeometryException"), s0)            (* 55-56 *)
    | Some (n, l) =>
        match steps p0 p1 (Some n) l s0 with
        | Ok s' => (Ok tt, s')
        | Throw e => (Throw e, s0)
        | UB => (UB, s0)
        end
    end.

(** The five queries, lines 132, 145, 159, 172, 191, and what they return. *)
Inductive qkind := QMaterials | QVolumes | QThicknesses | QNRad | QNInt.
Inductive answer := ANames (l : list string) | ALengths (l : list R) | ANumber (x : R).
(** lines 180-184 and 198-203: the sum stops being defined when the other vector is shorter *)
Fixpoint nlen (len dist : list R) : result R :=
  match len with
  | [] => Ok 0
  | x :: len' =>
      if Reqb x 0 then nlen len' (tl dist)
      else match dist with
           | [] => UB
           | d :: dist' => rmap (fun y => d / x + y) (nlen len' dist')
           end
  end.
Definition clear_of (k : qkind) (s : dprops) : dprops :=
  match k with
  | QMaterials => mkDP (d_p0 s) (d_p1 s) (d_vol s) [] (d_dist s) (d_int s) (d_rad s)      (* 136 *)
  | QVolumes => mkDP (d_p0 s) (d_p1 s) [] (d_mat s) (d_dist s) (d_int s) (d_rad s)        (* 149 *)
  | QThicknesses => mkDP (d_p0 s) (d_p1 s) (d_vol s) (d_mat s) [] (d_int s) (d_rad s)     (* 163 *)
  | _ => s
  end.
Definition read_of (k : qkind) (s : dprops) : result answer :=
  match k with
  | QMaterials => Ok (ANames (d_mat s))                                 (* 140 *)
  | QVolumes => Ok (ANames (d_vol s))                                   (* 153 *)
  | QThicknesses => Ok (ALengths (d_dist s))                            (* 167 *)
  | QNRad => rmap ANumber (nlen (d_rad s) (d_dist s))                   (* 180-185 *)
  | QNInt => rmap ANumber (nlen (d_int s) (d_dist s))                   (* 198-204 *)
  end.
Definition query (g : geometry) (k : qkind) (p0 p1 : vec) (s : dprops) : result answer * dprops :=
  if veqb p0 p1
  then match k with
       | QNRad | QNInt => (Ok (ANumber 0), s)                           (* 176, 194 *)
       | _ => let s' := clear_of k s in (read_of k s', s')
       end
  else match beamOn g p0 p1 s with
       | (Ok _, s') => (read_of k s', s')
       | (Throw e, s') => (Throw e, s')
       | (UB, s') => (UB, s')
       end.
