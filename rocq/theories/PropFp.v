(** Property theorems for C73 and C74: angles and material maps in double arithmetic *)
From Coq Require Import ZArith List Bool Reals Lra Lia.
From Flocq Require Import Core.
From Verif Require Import Base RBase VecModel NumModel NumSpec MatModel MatSpec FpModel FpSpec FpMapModel FpMapSpec.
From Verif Require FpProofs FpMapProofs FpMapCases FpReadProofs FpDefined.
Import ListNotations.
Open Scope R_scope.

(** Cases that meet the hypotheses: a million radians, 2^57 radians. *)
Lemma double_int : forall m : Z, (Z.abs m < 2 ^ 53)%Z -> is_double (IZR m).
Proof. intros m H. exists m, 0%Z. cbn [powerRZ]. split; [ring|]. split; lia. Qed.
Example million_case : is_double 1000000 /\ Rabs 1000000 <= huge.
Proof. split; [apply double_int; reflexivity|]. unfold huge. rewrite Rabs_pos_eq; lra. Qed.
Example too_large_case : is_double 144115188075855872 /\ huge < Rabs 144115188075855872.
Proof. split; [exists 4503599627370496%Z, 5%Z; split; [replace (powerRZ 2 5) with 32 by (unfold powerRZ; change (Pos.to_nat 5) with 5%nat; ring); lra|split; [reflexivity|lia]]|]. unfold huge. rewrite Rabs_pos_eq; lra. Qed.
(** A range of 0 to 100 in ten parts has no rounding errors; -1000 to 1000 in seven parts has. *)
Example tenths_case : exact_grid (mkAx 0 100 10).
Proof. exists 0%Z, 10%Z, 0%Z. cbn [ax_min ax_max ax_n powerRZ]. split; [lra|]. split; [change (0 + 10 * 10)%Z with 100%Z; lra|]. repeat split; lia. Qed.
Example sevenths_case : grid_ok (mkAx (-1000) 1000 7).
Proof.
  unfold grid_ok. cbn [ax_min ax_max ax_n]. split; [apply double_int; reflexivity|]. split; [apply double_int; reflexivity|]. split; [lra|]. split; [lia|].
  split; [intros _; rewrite Rabs_left, Rabs_pos_eq by lra; lra|discriminate].
Qed.
Example one_point_case : grid_ok (mkAx 0 0 0).
Proof. exact FpMapCases.one_point_ok. Qed.

(** C73: for a window whose ends are doubles up to 2^50, and any double up to 2^56 in absolute value, the two loops end.  The
    result is a double, at most the upper end and not below the lower end (or one turn below the upper end, where
    the window is shorter than a turn); an angle already inside is kept; otherwise the result differs from the angle
    by whole turns, up to the bound on the rounding errors. *)
Theorem C73_angle_in_range : forall lo hi phi, is_double lo -> is_double hi -> is_double phi -> - large <= lo -> lo <= hi -> hi <= large -> Rabs phi <= huge ->
  exists y, ends_with lo hi phi y /\ is_double y /\ Rmin lo (fsub hi two_pi) <= y <= hi /\ (lo <= phi <= hi -> y = phi) /\ turned phi y (turn_error lo hi phi).
Proof. exact FpProofs.angle_returns. Qed.
Print Assumptions C73_angle_in_range.

(** C73: the pad rows and disk layouts of full circles bring every such angle into [0, 2 pi). *)
Theorem C73_full_circle : forall phi, is_double phi -> Rabs phi <= huge ->
  exists n y, wrap_circle n phi = Some y /\ is_double y /\ 0 <= y < 2 * PI /\ (0 <= phi <= two_pi -> y = phi) /\
    turned phi y ((Rabs phi + 23) ^ 2 / 4503599627370496).
Proof. exact FpProofs.circle_returns. Qed.
Print Assumptions C73_full_circle.

(** C73: disk layouts with pads of fixed size that are not full circles: between -2 pi and 2 pi. *)
Theorem C73_two_turns : forall phi, is_double phi -> Rabs phi <= huge ->
  exists n y, wrap_two_turns n phi = Some y /\ is_double y /\ - (2 * PI) < y < 2 * PI /\ (- two_pi <= phi <= two_pi -> y = phi) /\
    turned phi y ((Rabs phi + 29) ^ 2 / 4503599627370496).
Proof. exact FpProofs.two_turns_returns. Qed.
Print Assumptions C73_two_turns.

(** C73: disk layouts with pads of fixed angle: not more than half a turn from the mean angle, up to 10^-12. *)
Theorem C73_around_mean : forall mean phi, is_double mean -> is_double phi -> Rabs mean <= 1000 -> Rabs phi <= huge ->
  exists n y, wrap_around n mean phi = Some y /\ is_double y /\ Rabs (y - mean) <= PI + 1 / 1000000000000 /\
    turned phi y ((Rabs phi + 2 * Rabs mean + 24) ^ 2 / 4503599627370496).
Proof. exact FpProofs.around_returns. Qed.
Print Assumptions C73_around_mean.

(** C73 (defect): for every double above 2^56 in absolute value the loops never end, because subtracting (or adding) a turn
    gives back the same double. *)
Theorem C73_large_angle_hangs : forall lo hi phi, is_double phi -> - large <= lo -> lo <= hi -> hi <= large -> huge < Rabs phi -> never_ends lo hi phi.
Proof. exact FpProofs.angle_stuck. Qed.
Print Assumptions C73_large_angle_hangs.

(** C74: a material map of ranges with small rounding errors is built (or the construction throws because the material
    at one of its points cannot be found): in each coordinate a point near each end point of the parts is filled in, except that
    the last may be missing, where the map holds zeros. *)
Theorem C74_map_in_doubles : forall nrad nint pos x y z coord, (forall q, nrad q <> UB) -> (forall q, nint q <> UB) ->
  grid_ok x -> grid_ok y -> grid_ok z -> fdomain_ok x y z coord ->
  exists xs ys zs enough, planes x xs /\ planes y ys /\ planes z zs /\ forall fuel, (enough <= fuel)%nat ->
  (exists m, fnew_map fuel nrad nint pos x y z coord = Some (Ok m) /\ mm_x m = x /\ mm_y m = y /\ mm_z m = z /\ holds_planes nrad nint (pos coord) xs ys zs m) \/
  (exists e a b c, fnew_map fuel nrad nint pos x y z coord = Some (Throw e) /\ In a xs /\ In b ys /\ In c zs /\
     let p := pos coord a b c in p <> vzero /\ ((exists e, nrad p = Throw e) \/ (exists e, nint p = Throw e))).
Proof. exact FpMapProofs.fmap_built. Qed.
Print Assumptions C74_map_in_doubles.

(** C74: where the ends and the parts are multiples of one power of two, nothing is missing: the map holds the
    material at every grid point. *)
Theorem C74_exact_grid_complete : forall nrad nint pos x y z coord, (forall q, nrad q <> UB) -> (forall q, nint q <> UB) ->
  (forall a, In a [x; y; z] -> exact_grid a \/ grid_ok a /\ ax_n a = 0%Z) -> fdomain_ok x y z coord ->
  exists enough, forall fuel, (enough <= fuel)%nat ->
  (exists m, fnew_map fuel nrad nint pos x y z coord = Some (Ok m) /\ mm_x m = x /\ mm_y m = y /\ mm_z m = z /\
     forall i j k, in_axis x i -> in_axis y j -> in_axis z k -> material nrad nint (pos coord (node x i) (node y j) (node z k)) (mm_val m i j k)) \/
  (exists e i j k, fnew_map fuel nrad nint pos x y z coord = Some (Throw e) /\ in_axis x i /\ in_axis y j /\ in_axis z k /\
     let p := pos coord (node x i) (node y j) (node z k) in p <> vzero /\ ((exists e, nrad p = Throw e) \/ (exists e, nint p = Throw e))).
Proof. exact FpMapProofs.fmap_exact. Qed.
Print Assumptions C74_exact_grid_complete.

(** C74 (defect): the last plane can be missing.  With x from 0 to 100 in nine parts it is, and both lengths read at
    x = 100 are 0, whatever the material. *)
Theorem C74_last_plane_lost : forall nrad nint pos, (forall q, exists v, nrad q = Ok v) -> (forall q, exists v, nint q = Ok v) ->
  exists enough, forall fuel, (enough <= fuel)%nat ->
  exists m, fnew_map fuel nrad nint pos (mkAx 0 100 9) (mkAx 0 0 0) (mkAx 0 0 0) CARTESIAN = Some (Ok m) /\
  fgetRadiationLength m 100 0 0 = Ok 0 /\ fgetInteractionLength m 100 0 0 = Ok 0.
Proof. exact FpMapCases.last_plane_lost. Qed.
Print Assumptions C74_last_plane_lost.

(** C74: in a map whose ends and parts are multiples of one power of two, reading at a grid point gives the lengths
    stored for it. *)
Theorem C74_grid_points_read : forall m i j k, (forall a, In a [mm_x m; mm_y m; mm_z m] -> exact_grid a \/ grid_ok a /\ ax_n a = 0%Z) ->
  in_axis (mm_x m) i -> in_axis (mm_y m) j -> in_axis (mm_z m) k ->
  let x := node (mm_x m) i in let y := node (mm_y m) j in let z := node (mm_z m) k in
  fgetRadiationLength m x y z = Ok (to_double (fst (mm_val m i j k))) /\
  fgetInteractionLength m x y z = Ok (to_double (snd (mm_val m i j k))).
Proof. intros m i j k H. apply FpReadProofs.fread_grid; unfold FpReadProofs.exact_axis; apply H; cbn; auto. Qed.
Print Assumptions C74_grid_points_read.

(** C74: what is read lies between the smallest and the largest length stored, up to one part in 2^47, wherever it is
    read. *)
Theorem C74_reading_between : forall m x y z lo hi lo' hi', (forall a, In a [mm_x m; mm_y m; mm_z m] -> moderate (ax_min a) /\ moderate (ax_max a)) ->
  moderate x -> moderate y -> moderate z -> 0 <= lo -> 0 <= lo' ->
  (forall i j k, in_axis (mm_x m) i -> in_axis (mm_y m) j -> in_axis (mm_z m) k ->
     let v := mm_val m i j k in usual (fst v) /\ lo <= fst v <= hi /\ usual (snd v) /\ lo' <= snd v <= hi') ->
  (forall r, fgetRadiationLength m x y z = Ok r -> (1 - reading_error) * lo <= r <= (1 + reading_error) * hi) /\
  (forall r, fgetInteractionLength m x y z = Ok r -> (1 - reading_error) * lo' <= r <= (1 + reading_error) * hi').
Proof. exact FpReadProofs.fread_lengths. Qed.
Print Assumptions C74_reading_between.

(** C74: in a map of at least two parts in each coordinate (or a single point), with ends up to 10^9, every point of the
    range can be read. *)
Theorem C74_reading_defined : forall m x y z, (forall a, In a [mm_x m; mm_y m; mm_z m] -> readable a) ->
  is_double x -> is_double y -> is_double z -> ax_min (mm_x m) <= x <= ax_max (mm_x m) -> ax_min (mm_y m) <= y <= ax_max (mm_y m) -> ax_min (mm_z m) <= z <= ax_max (mm_z m) ->
  exists r r', fgetRadiationLength m x y z = Ok r /\ fgetInteractionLength m x y z = Ok r'.
Proof. exact FpDefined.fread_defined. Qed.
Print Assumptions C74_reading_defined.

(** A case: lengths of 3 and 30 on even planes and 5 and 50 on odd ones, x from -1000 to 1000 in seven parts; at x = 12
    the map can be read, and what it gives lies between. *)
Definition striped : mmap := mkMM (mkAx (-1000) 1000 7) (mkAx 0 0 0) (mkAx 0 100 10) (fun i _ _ => if Z.even i then (3, 30) else (5, 50)).
Example striped_case : exists r, fgetRadiationLength striped 12 0 34 = Ok r /\ (1 - reading_error) * 3 <= r <= (1 + reading_error) * 5.
Proof.
  destruct (C74_reading_defined striped 12 0 34) as (r & r' & E & _).
  - intros a [<-|[<-|[<-|[]]]]; cbn [striped mm_x mm_y mm_z].
    + split; [exact sevenths_case|]. cbn [ax_min ax_max ax_n]. rewrite Rabs_left by lra. rewrite Rabs_pos_eq by lra. split; [lra|]. split; [lra|]. left. lia.
    + split; [exact one_point_case|]. cbn [ax_min ax_max ax_n]. rewrite Rabs_R0. split; [lra|]. split; [lra|]. right. split; reflexivity.
    + split.
      * unfold grid_ok. cbn [ax_min ax_max ax_n]. split; [apply double_int; reflexivity|]. split; [apply double_int; reflexivity|]. split; [lra|]. split; [lia|].
        split; [intros _; rewrite !Rabs_pos_eq by lra; lra|discriminate].
      * cbn [ax_min ax_max ax_n]. rewrite !Rabs_pos_eq by lra. split; [lra|]. split; [lra|]. left. lia.
  - apply double_int; reflexivity.
  - apply double_int; reflexivity.
  - apply double_int; reflexivity.
  - cbn. lra.
  - cbn. lra.
  - cbn. lra.
  - exists r. split; [exact E|].
    assert (Mo : forall v, Rabs v <= 1000 -> moderate v).
    { intros v H. unfold moderate. rewrite FpReadProofs.two_power. pose proof (bpow_le radix2 10 100 ltac:(lia)) as P. change (bpow radix2 10) with 1024 in P. lra. }
    assert (Us : forall v, 1 <= v -> usual v).
    { intros v H. right. rewrite FpReadProofs.two_power. pose proof (bpow_le radix2 (-800) 0 ltac:(lia)) as P. change (bpow radix2 0) with 1 in P. lra. }
    eapply (proj1 (C74_reading_between striped 12 0 34 3 5 30 50 _ _ _ _ _ _ _)). exact E.
    Unshelve.
    + intros a [<-|[<-|[<-|[]]]]; cbn [striped mm_x mm_y mm_z ax_min ax_max]; split; apply Mo; first [rewrite Rabs_pos_eq by lra; lra|rewrite Rabs_left by lra; lra].
    + apply Mo. rewrite Rabs_pos_eq; lra.
    + apply Mo. rewrite Rabs_pos_eq; lra.
    + apply Mo. rewrite Rabs_pos_eq; lra.
    + lra.
    + lra.
    + intros i j k _ _ _. cbn [striped mm_val]. destruct (Z.even i); cbn [fst snd]; repeat split; try (apply Us); lra.
Qed.

(** C74 (defect): with one part only, x from -12 to 54.9, a point inside the range cannot be read: at x = 10.13 both
    neighbours are rounded to points outside the range, and the result is 0/0. *)
Theorem C74_reading_refuted : forall m, mm_x m = mkAx (-12) (to_double (549 / 10)) 1 -> mm_y m = mkAx 0 0 0 -> mm_z m = mkAx 0 0 0 ->
  fgetRadiationLength m (to_double (1013 / 100)) 0 0 = UB /\ fgetInteractionLength m (to_double (1013 / 100)) 0 0 = UB.
Proof. exact FpDefined.read_nan. Qed.
Print Assumptions C74_reading_refuted.

(** C74 (defect): with x from -2 to 3 in one part, what is read at x = 2.999 depends on the plane at -2 alone: if that plane is
    empty, both lengths are zero, whatever the map holds at 3. *)
Theorem C74_far_plane_read : forall m, mm_x m = mkAx (-2) 3 1 -> mm_y m = mkAx 0 0 0 -> mm_z m = mkAx 0 0 0 ->
  mm_val m 0 0 0 = (0, 0) -> fgetRadiationLength m (to_double (2999 / 1000)) 0 0 = Ok 0 /\ fgetInteractionLength m (to_double (2999 / 1000)) 0 0 = Ok 0.
Proof. exact FpDefined.read_far. Qed.
Print Assumptions C74_far_plane_read.
