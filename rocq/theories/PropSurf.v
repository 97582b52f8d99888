(** C20-C22: measurement surfaces. *)
From Coq Require Import ZArith List String Bool Reals Lra Lia.
From Verif Require Import Base RBase VecModel SurfModel SurfSpec SurfProofs.
Import ListNotations.
Open Scope R_scope.

(** Every rotation around z is orthonormal, so are reflections of axes. *)
Example some_rotation : orthonormal (rotZ 1) /\ orthonormal (mkRot (mkVec 0 1 0) (mkVec 0 0 1) (mkVec 1 0 0)).
Proof. split; [apply rotZ_orthonormal|]. unfold orthonormal, vdot; cbn. lra. Qed.
(** A turned rectangle contains a point off the axes. *)
Example turned_rectangle : in_rectangle 4 2 (PI / 2) (-1) 2.
Proof. exists 2, 1. split; [lra|]. split; [lra|]. unfold turned. rewrite cos_PI2, sin_PI2. f_equal; ring. Qed.
(** A filler with two surfaces meets the demands of a successful fill, one with a repeated ID does not. *)
Example good_filler : let f := mkFiller "F" [Some (10, 1); Some (11, 2)]%Z in answers new_store (fun _ => None) /\ no_null f /\
  isFilled new_store = false /\ distinct (fl_surfaces f).
Proof.
  cbn. split; [intros id; cbn; eexists; reflexivity|]. split; [unfold no_null; cbn; intros [X|[X|[]]]; discriminate|]. split; [reflexivity|].
  unfold distinct; cbn. constructor; [intros [X|[]]; discriminate|]. constructor; [intros []|constructor].
Qed.
Example bad_filler : let f := mkFiller "F" [Some (10, 1); Some (11, 1)]%Z in no_null f /\ ~ distinct (fl_surfaces f) /\
  exists s e, FillStore new_store f = SThrow s e.
Proof.
  cbn. split; [unfold no_null; cbn; intros [X|[X|[]]]; discriminate|]. split; [|eexists; eexists; reflexivity].
  unfold distinct; cbn. intros D. inversion D as [|x l N D']; subst. apply N. now left.
Qed.

(** Local and global coordinates are inverse to each other. *)
Theorem C20_inverse : forall T m, orthonormal m -> forall p,
  getGlobalPoint (new_csys T m) (getLocalPoint (new_csys T m) p) = p /\
  getLocalPoint (new_csys T m) (getGlobalPoint (new_csys T m) p) = p.
Proof. exact csys_inverse. Qed.
Print Assumptions C20_inverse.

(** Both keep distances. *)
Theorem C20_isometry : forall T m, orthonormal m -> forall p q,
  vdist (getGlobalPoint (new_csys T m) p) (getGlobalPoint (new_csys T m) q) = vdist p q /\
  vdist (getLocalPoint (new_csys T m) p) (getLocalPoint (new_csys T m) q) = vdist p q.
Proof. exact csys_isometry. Qed.
Print Assumptions C20_isometry.

(** Origin and axes are those of the local system. *)
Theorem C20_origin_axes : forall T m, getGlobalPoint (new_csys T m) vzero = T /\ getOrigin (new_csys T m) = T /\
  getLocalXAxis (new_csys T m) = vsub (getGlobalPoint (new_csys T m) (mkVec 1 0 0)) T /\
  getLocalYAxis (new_csys T m) = vsub (getGlobalPoint (new_csys T m) (mkVec 0 1 0)) T /\
  getLocalZAxis (new_csys T m) = vsub (getGlobalPoint (new_csys T m) (mkVec 0 0 1)) T.
Proof. exact csys_origin. Qed.
Print Assumptions C20_origin_axes.

(** A rectangle accepts exactly its points. *)
Theorem C21_rectangle : forall w l d alpha p,
  isInBoundary (Rectangle w l d alpha) p = true <-> Rabs (vz p) <= d /\ in_rectangle w l alpha (vx p) (vy p).
Proof. exact rect_exact. Qed.
Print Assumptions C21_rectangle.

(** A trapezoid accepts exactly the convex hull of its corners. *)
Theorem C21_trapezoid : forall bottom top h d alpha p, 0 <= bottom -> 0 <= top -> 0 < h ->
  (isInBoundary (Trapezoid bottom top h d alpha) p = true <-> Rabs (vz p) <= d /\ in_trapezoid bottom top h alpha (vx p) (vy p)).
Proof. exact trap_exact. Qed.
Print Assumptions C21_trapezoid.

(** A trapezoid of height 0 accepts points arbitrarily far away (0/0 compares false). *)
Theorem C21_flat_trapezoid_refuted : forall bottom top d alpha t, 0 <= d ->
  isInBoundary (Trapezoid bottom top 0 d alpha) (mkVec (t * cos alpha) (t * sin alpha) 0) = true.
Proof. exact trap_flat. Qed.
Print Assumptions C21_flat_trapezoid_refuted.

(** The tests of a surface. *)
Theorem C21_surface : forall id T m b, orthonormal m ->
  (forall p, isLocalInBoundary (mkSurface id (Some (new_csys T m)) (Some b)) p = isInBoundary b p) /\
  (forall p, isGlobalInBoundary (mkSurface id (Some (new_csys T m)) (Some b)) (getGlobalPoint (new_csys T m) p) = Ok (isInBoundary b p)) /\
  (forall g, isGlobalInBoundary (mkSurface id (Some (new_csys T m)) (Some b)) g = Ok (isInBoundary b (getLocalPoint (new_csys T m) g))) /\
  (forall p, isLocalInBoundary (mkSurface id (Some (new_csys T m)) None) p = true) /\
  (forall g, isGlobalInBoundary (mkSurface id (Some (new_csys T m)) None) g = Ok true).
Proof. exact surface_tests. Qed.
Print Assumptions C21_surface.

(** A fill of an unfilled store succeeds exactly if all IDs are new and distinct, and then adds exactly these surfaces; otherwise the surfaces before the first clash stay in the store. *)
Theorem C22_fill_exact : forall s tab f, answers s tab -> no_null f -> isFilled s = false ->
  (distinct (fl_surfaces f) /\ (forall a id, In (Some (a, id)) (fl_surfaces f) -> tab id = None) ->
     exists s', FillStore s f = SOk s' tt /\ isFilled s' = true /\ getFillerName s' = Ok (fl_name f) /\
       answers s' (both tab (first_for (fl_surfaces f)))) /\
  (~ (distinct (fl_surfaces f) /\ (forall a id, In (Some (a, id)) (fl_surfaces f) -> tab id = None)) ->
     exists pre a id post s' e, fl_surfaces f = pre ++ Some (a, id) :: post /\
       FillStore s f = SThrow s' e /\ isFilled s' = false /\ (exists e', getFillerName s' = Throw e') /\
       answers s' (both tab (first_for pre)) /\ both tab (first_for pre) id <> None).
Proof. exact fill_exact. Qed.
Print Assumptions C22_fill_exact.

(** A filled store refuses every fill. *)
Theorem C22_fill_once : forall s f, isFilled s = true -> exists e, FillStore s f = SThrow s e.
Proof. exact fill_once. Qed.
Print Assumptions C22_fill_once.

(** An ID once bound stays bound to the same surface, over any history of fills. *)
Theorem C22_bindings_stay : forall h s s', (forall f, In f h -> no_null f) -> fill_run s h = Some s' ->
  forall id a, GetMeasurementSurface s id = Ok a -> GetMeasurementSurface s' id = Ok a.
Proof. exact run_keeps. Qed.
Print Assumptions C22_bindings_stay.

(** Fills without null pointers never run into undefined behaviour. *)
Theorem C22_history_total : forall h s, (forall f, In f h -> no_null f) -> exists s', fill_run s h = Some s'.
Proof. exact run_total. Qed.
Print Assumptions C22_history_total.

(** After the successful fill nothing changes. *)
Theorem C22_final : forall s f s' h s2, FillStore s f = SOk s' tt -> fill_run s' h = Some s2 -> s2 = s'.
Proof. exact fill_final. Qed.
Print Assumptions C22_final.

(** A filler that failed once never succeeds, whatever is filled in between. *)
Theorem C22_no_retry : forall s f s' e, no_null f -> FillStore s f = SThrow s' e ->
  forall h s2, (forall g, In g h -> no_null g) -> fill_run s' h = Some s2 ->
  exists s3 e', FillStore s2 f = SThrow s3 e'.
Proof. exact fill_no_retry. Qed.
Print Assumptions C22_no_retry.

(** After a failed fill the store can hold surfaces of two fillers under the name of one. *)
Theorem C22_mixed_refuted : exists f g s1 e s2, no_null f /\ no_null g /\ FillStore new_store f = SThrow s1 e /\ FillStore s1 g = SOk s2 tt /\
  getFillerName s2 = Ok (fl_name g) /\ fl_name g <> fl_name f /\
  exists a, In (Some (a, 1%Z)) (fl_surfaces f) /\ ~ In (Some (a, 1%Z)) (fl_surfaces g) /\ GetMeasurementSurface s2 1 = Ok a.
Proof. exact fill_mixed. Qed.
Print Assumptions C22_mixed_refuted.

(** A null surface is dereferenced. *)
Theorem C22_null_undefined : forall s n l1 l2, isFilled s = false -> (exists s', add_all (mkStore (st_map s) false n) l1 = SOk s' tt) ->
  FillStore s (mkFiller n (l1 ++ None :: l2)) = SUB.
Proof. exact fill_null. Qed.
Print Assumptions C22_null_undefined.

(** The destructor never deletes a surface. *)
Theorem C22_surfaces_leak : forall s, store_deletes s = [].
Proof. exact store_leaks. Qed.
Print Assumptions C22_surfaces_leak.

(** A copy answers like the original. *)
Theorem C22_copy : forall s id, GetMeasurementSurface (copy_store s) id = GetMeasurementSurface s id /\
  isFilled (copy_store s) = isFilled s /\ getFillerName (copy_store s) = getFillerName s.
Proof. exact store_copy. Qed.
Print Assumptions C22_copy.
