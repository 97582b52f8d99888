(** Property theorems for C45 and C46: material maps and their factory *)
From Coq Require Import ZArith List Bool Reals Lia Lra String.
From Verif Require Import Base RBase VecModel MatModel MatSpec MatProofs.
Import ListNotations.
Open Scope R_scope.

(** The map of the examples: 20 by 10 by 0 steps in cylindrical coordinates. *)
Definition ex_r : axis := mkAx 0 100 20.
Definition ex_phi : axis := mkAx 0 6 10.
Definition ex_z : axis := mkAx 5 5 0.
Example axes_case : axis_ok ex_r /\ axis_ok ex_phi /\ axis_ok ex_z /\ domain_ok ex_r ex_phi ex_z CYLINDRICAL.
Proof.
  pose proof PI2_3_2. unfold axis_ok, domain_ok; cbn. split; [repeat split; try lia; try lra|]. split; [repeat split; try lia; try lra|].
  split; [repeat split; try lia; try lra|]. right. left. repeat split; lra.
Qed.
(** Material that grows with the distance; the exception of a point outside the world. *)
Definition ex_rad (p : vec) : result R := if Rltb 1000 (vx p) then Throw (EGear "outside"%string) else Ok (vx p * vx p + vy p * vy p).
Example material_case : (forall q, ex_rad q <> UB) /\ material ex_rad ex_rad (mkVec 3 4 5) (25, 25).
Proof.
  unfold ex_rad, material. split; [intros q; destruct (Rltb _ _); discriminate|]. right. cbn. split; [intros E; injection E; lra|].
  destruct (Rltb_spec 1000 3); [lra|]. split; f_equal; lra.
Qed.
(** A point between the grid points, and one next to a grid point; one that is outside. *)
Example points_case : in_reach ex_r 52 /\ in_reach ex_phi 1 /\ in_reach ex_z 5 /\ next_to ex_r 52 10 /\
  dist3 50 (6 / 10) 5 (node ex_r 10) (node ex_phi 1) (node ex_z 0) < 1 / 100000 /\ ~ in_reach ex_r 101.
Proof.
  unfold in_reach, next_to, in_axis, node. cbn. split; [lra|]. split; [lra|]. split; [lra|]. split; [split; [lia|]; unfold Rabs; destruct (Rcase_abs _); lra|].
  split; [|lra]. unfold dist3. match goal with |- sqrt ?e < _ => replace e with 0 by field end. rewrite sqrt_0. lra.
Qed.
(** A range of one point cut in three; a range of length 2 that is not cut. *)
Example hard_ranges_case : let p := mkAx 5 5 3 in let q := mkAx 1 3 0 in
  domain_ok ex_r ex_phi p CYLINDRICAL /\ domain_ok ex_r ex_phi q CYLINDRICAL /\ ax_min p = ax_max p /\ (0 < ax_n p)%Z /\
  ax_n q = 0%Z /\ ax_min q + 1 <= ax_max q.
Proof. intros p q. pose proof PI2_3_2. unfold domain_ok; cbn. repeat split; try lra; try lia; right; left; repeat split; lra. Qed.
(** Requests. *)
Definition ex_c : mreq := mkReq ex_r ex_phi ex_z CYLINDRICAL.
Definition ex_k : mreq := mkReq ex_r ex_phi ex_z CARTESIAN.
Example requests_case : fst (createMaterialMap false (fun _ => false) new_factory ex_c) = Ok 1%Z /\ same_grid ex_c ex_k.
Proof. split; [reflexivity|]. repeat split. Qed.

(** C45: a map of valid ranges in a known coordinate system holds, after construction, the material between
    the origin and each of its grid points; otherwise the construction throws, because the material
    of one of the grid points cannot be found. *)
Theorem C45_map_built : forall nrad nint x y z coord, (forall q, nrad q <> UB) -> (forall q, nint q <> UB) ->
  axis_ok x -> axis_ok y -> axis_ok z -> domain_ok x y z coord ->
  exists enough, forall fuel, (enough <= fuel)%nat ->
  (exists m, new_map fuel nrad nint x y z coord = Some (Ok m) /\ mm_x m = x /\ mm_y m = y /\ mm_z m = z /\ holds_material nrad nint coord m) \/
  (exists e i j k, new_map fuel nrad nint x y z coord = Some (Throw e) /\ in_axis x i /\ in_axis y j /\ in_axis z k /\
     let p := position coord (node x i) (node y j) (node z k) in p <> vzero /\ ((exists e, nrad p = Throw e) \/ (exists e, nint p = Throw e))).
Proof. exact map_built. Qed.
Print Assumptions C45_map_built.

(** C45: ranges that end before they begin, negative numbers of steps, unknown coordinate systems and ranges
    outside the domain of the coordinates throw. *)
Theorem C45_map_refused : forall nrad nint x y z coord fuel,
  (ax_max x < ax_min x \/ ax_max y < ax_min y \/ ax_max z < ax_min z \/ (ax_n x < 0)%Z \/ (ax_n y < 0)%Z \/ (ax_n z < 0)%Z \/ ~ domain_ok x y z coord) ->
  exists e, new_map fuel nrad nint x y z coord = Some (Throw (EGear e)).
Proof. exact map_refused. Qed.
Print Assumptions C45_map_refused.

(** C45: anywhere in the map both lengths can be read, and lie between any two bounds of the values at the grid
    points next to the position. *)
Theorem C45_reads_between : forall m x y z (rad : bool) lo hi, axis_ok (mm_x m) -> axis_ok (mm_y m) -> axis_ok (mm_z m) ->
  in_reach (mm_x m) x -> in_reach (mm_y m) y -> in_reach (mm_z m) z ->
  (forall i j k, next_to (mm_x m) x i -> next_to (mm_y m) y j -> next_to (mm_z m) z k ->
     lo <= (if rad then fst (mm_val m i j k) else snd (mm_val m i j k)) <= hi) ->
  exists r, (if rad then getRadiationLength m x y z else getInteractionLength m x y z) = Ok r /\ lo <= r <= hi.
Proof. exact reads_between. Qed.
Print Assumptions C45_reads_between.

(** C45: at (and within 0.00001 of) a grid point the lengths are those of the grid point. *)
Theorem C45_reads_grid : forall m x y z i j k, axis_ok (mm_x m) -> axis_ok (mm_y m) -> axis_ok (mm_z m) ->
  in_reach (mm_x m) x -> in_reach (mm_y m) y -> in_reach (mm_z m) z -> in_axis (mm_x m) i -> in_axis (mm_y m) j -> in_axis (mm_z m) k ->
  dist3 x y z (node (mm_x m) i) (node (mm_y m) j) (node (mm_z m) k) < 1 / 100000 ->
  getRadiationLength m x y z = Ok (fst (mm_val m i j k)) /\ getInteractionLength m x y z = Ok (snd (mm_val m i j k)).
Proof. exact reads_grid. Qed.
Print Assumptions C45_reads_grid.

(** C45: outside the map reading throws. *)
Theorem C45_reads_outside : forall m x y z, ~ (in_reach (mm_x m) x /\ in_reach (mm_y m) y /\ in_reach (mm_z m) z) ->
  (exists e, getRadiationLength m x y z = Throw (EGear e)) /\ (exists e, getInteractionLength m x y z = Throw (EGear e)).
Proof. exact reads_outside. Qed.
Print Assumptions C45_reads_outside.

(** C45 (defect): a range of one point that is to be cut into steps is not refused; the first grid
    point then divides zero by zero and converts the result to an int. *)
Theorem C45_point_range_undefined : forall nrad nint x y z coord fuel, domain_ok x y z coord -> (0 < fuel)%nat ->
  (forall p, exists r, nrad p = Ok r) -> (forall p, exists r, nint p = Ok r) -> axis_ok x -> axis_ok y ->
  ax_min z = ax_max z -> (0 < ax_n z)%Z -> new_map fuel nrad nint x y z coord = Some UB.
Proof. exact point_range_ub. Qed.
Print Assumptions C45_point_range_undefined.

(** C45 (defect): a range without steps that is 1 or longer is not refused; its second point is written
    behind the end of the map. *)
Theorem C45_uncut_range_undefined : forall nrad nint x y z coord fuel, domain_ok x y z coord -> (1 < fuel)%nat ->
  (forall p, exists r, nrad p = Ok r) -> (forall p, exists r, nint p = Ok r) -> axis_ok x -> axis_ok y ->
  ax_n z = 0%Z -> ax_min z + 1 <= ax_max z -> new_map fuel nrad nint x y z coord = Some UB.
Proof. exact long_range_ub. Qed.
Print Assumptions C45_uncut_range_undefined.

(** C46: once a map was given, requests for the same grid give the same map, whatever was asked for in
    between. *)
Theorem C46_again_same : forall l fl f r r' p f' rs, createMaterialMap l fl f r = (Ok p, f') -> same_grid r r' ->
  fst (createMaterialMap l fl (requests l fl f' rs) r') = Ok p.
Proof. exact again_same. Qed.
Print Assumptions C46_again_same.

(** C46: requests that give the same map ask for the same grid. *)
Theorem C46_different_objects : forall l fl rs r p f' rs' r' p' f'', createMaterialMap l fl (requests l fl new_factory rs) r = (Ok p, f') ->
  createMaterialMap l fl (requests l fl f' rs') r' = (Ok p', f'') -> p <> 0%Z -> p = p' -> same_grid r r'.
Proof. exact different_objects. Qed.
Print Assumptions C46_different_objects.

(** C46: the map given was made for this grid. *)
Theorem C46_made_for : forall l fl rs r p f', createMaterialMap l fl (requests l fl new_factory rs) r = (Ok p, f') -> p <> 0%Z ->
  exists r0, In (p, r0) (f_objs f') /\ same_grid r0 r /\ (forall r1, In (p, r1) (f_objs f') -> r1 = r0).
Proof. exact made_for. Qed.
Print Assumptions C46_made_for.

(** C46: when no construction fails, the map given is never null. *)
Theorem C46_not_null : forall l fl rs r p f', (forall q, fl q = false) -> createMaterialMap l fl (requests l fl new_factory rs) r = (Ok p, f') -> p <> 0%Z.
Proof. exact null_never. Qed.
Print Assumptions C46_not_null.

(** C46 (defect): a request that differs only in the coordinate system gives the map made for the first
    coordinate system. *)
Theorem C46_coordinates_refuted : forall l fl rs x y z c c', fl (mkReq x y z c) = false -> let f := requests l fl new_factory rs in
  key_find (f_map f) (grid_key (mkReq x y z c)) = None ->
  forall p f', createMaterialMap l fl f (mkReq x y z c) = (Ok p, f') ->
  fst (createMaterialMap l fl f' (mkReq x y z c')) = Ok p /\ In (p, mkReq x y z c) (f_objs f').
Proof. exact coordinates_ignored. Qed.
Print Assumptions C46_coordinates_refuted.

(** C46 (defect): where the compiler evaluates the left-hand side of the assignment first, repeating a request
    whose construction failed gives a null pointer instead of failing again. *)
Theorem C46_failed_again_refuted : forall fl f r e f', createMaterialMap true fl f r = (Throw e, f') -> fst (createMaterialMap true fl f' r) = Ok 0%Z.
Proof. exact failed_again. Qed.
Print Assumptions C46_failed_again_refuted.

(** C46: where it evaluates the right-hand side first, the request fails again. *)
Theorem C46_failed_again_late : forall fl f r e f', createMaterialMap false fl f r = (Throw e, f') -> f' = f /\ createMaterialMap false fl f' r = (Throw e, f').
Proof. exact failed_again_late. Qed.
Print Assumptions C46_failed_again_late.
