(** C24-C28, C30: the TPC description. *)
From Coq Require Import ZArith List String Bool Reals Lra Lia.
From Verif Require Import Base RBase TpcModuleModel TpcModel TpcSpec TpcModuleProofs TpcModuleProofs2 TpcModuleProofs3 TpcModuleProofs4 TpcProofs TpcProofs2.
From Verif Require RectModel.
Import ListNotations.
Open Scope R_scope.

(** A TPC with two modules, one on each side, after some refused calls, meets the hypotheses of the
    theorems below. *)
Definition empty_rect : layout2d := LRect (RectModel.new_rect 0 10 0).
Definition two_calls : list tcall := [TAdd (Some 1%Z); TAdd (Some 3%Z); TAdd None; TAdd (Some 2%Z); TDrift 4].
Example two_module_tpc : exists h m1 m2 w,
  module_made 7 empty_rect CARTESIAN 10 [MZ (-5)] m1 /\ module_made 8 empty_rect CARTESIAN 10 [MZ 5; MOffset 20 0] m2 /\
  h 1%Z = m1 /\ h 2%Z = m2 /\ getModuleID (h 3%Z) = 7%Z /\
  still (mkW h (new_tpc 4 CARTESIAN)) two_calls /\ tpc_run (mkW h (new_tpc 4 CARTESIAN)) two_calls = Some w /\
  getModules (w_tpc w) = [1; 2]%Z /\ (forall a, In a (getModules (w_tpc w)) -> getZPosition (w_heap w a) <> None) /\
  ~ accepts w 3 /\ accepts w 9 /\
  (forall a, In a (getModules (w_tpc w)) -> exists d, getDistanceToModule (w_heap w a) 1 2 = Ok d).
Proof.
  destruct (history_exists 7 empty_rect CARTESIAN 10 [MZ (-5)]) as [m1 H1]; [left; reflexivity|intros; discriminate|intros; discriminate|].
  destruct (history_exists 8 empty_rect CARTESIAN 10 [MZ 5; MOffset 20 0]) as [m2 H2]; [left; reflexivity|intros; discriminate|intros; discriminate|].
  pose (h := fun a : Z => if (a =? 1)%Z then m1 else if (a =? 2)%Z then m2 else new_module (if (a =? 3)%Z then 7 else a) empty_rect CARTESIAN 0).
  destruct (module_getters _ _ _ _ _ _ H1) as (I1 & T1 & _ & _ & _ & _ & Z1).
  destruct (module_getters _ _ _ _ _ _ H2) as (I2 & T2 & _ & _ & _ & _ & Z2).
  assert (B1 : h 1%Z = m1) by reflexivity. assert (B2 : h 2%Z = m2) by reflexivity.
  assert (I3 : getModuleID (h 3%Z) = 7%Z) by reflexivity. assert (T3 : getTPCCoordinateType (h 3%Z) = CARTESIAN) by reflexivity.
  assert (I9 : getModuleID (h 9%Z) = 9%Z) by reflexivity. assert (T9 : getTPCCoordinateType (h 9%Z) = CARTESIAN) by reflexivity.
  rewrite <- B1 in I1, T1, Z1. rewrite <- B2 in I2, T2, Z2. clearbody h.
  assert (W : exists w, tpc_run (mkW h (new_tpc 4 CARTESIAN)) two_calls = Some w /\ w_heap w = h /\ getModules (w_tpc w) = [1; 2]%Z /\
    getCoordinateType (w_tpc w) = CARTESIAN).
  { assert (A1 : exists t, addModule h (new_tpc 4 CARTESIAN) (Some 1%Z) = SOk t tt /\ t_mods t = [1%Z] /\ t_map t = [(7, 0)]%Z /\ t_type t = CARTESIAN).
    { unfold addModule, new_tpc. destruct (Reqb_spec 4 (-1)); [lra|]. rewrite T1, I1, Z1. cbn -[Rleb]. eexists. split; [reflexivity|]. cbn. auto. }
    destruct A1 as (t1 & A1 & M1 & P1 & K1).
    assert (A3 : exists e, addModule h t1 (Some 3%Z) = SThrow t1 e).
    { unfold addModule. rewrite T3, I3, K1, P1. cbn. eexists. reflexivity. }
    destruct A3 as (e3 & A3).
    assert (A2 : exists t, addModule h t1 (Some 2%Z) = SOk t tt /\ t_mods t = [1; 2]%Z /\ t_type t = CARTESIAN).
    { unfold addModule. rewrite T2, I2, Z2, M1, P1, K1. cbn -[Rleb]. eexists. split; [reflexivity|]. cbn. auto. }
    destruct A2 as (t2 & A2 & M2 & K2).
    unfold two_calls. cbn [tpc_run call_tpc w_heap w_tpc]. rewrite A1. cbn [after w_heap w_tpc]. rewrite A3. cbn [after w_heap w_tpc].
    destruct (add_null h t1) as [e0' A0]. rewrite A0. cbn [after w_heap w_tpc]. rewrite A2. cbn [after w_heap w_tpc].
    eexists. split; [reflexivity|]. cbn. auto. }
  destruct W as (w & W1 & W2 & W3 & W4). exists h, m1, m2, w.
  split; [exact H1|]. split; [exact H2|]. split; [exact B1|]. split; [exact B2|]. split; [exact I3|].
  split. { unfold two_calls. cbn [still still_call]. repeat (split; [exact I|]; match goal with |- context [match ?x with Some _ => _ | None => _ end] => destruct x end;
             try exact I). }
  split; [exact W1|]. split; [exact W3|]. rewrite W3, W2.
  split. { intros a [<-|[<-|[]]]; [rewrite Z1|rewrite Z2]; discriminate. }
  split. { intros [_ A]. apply (A 1%Z); [rewrite W3; left; reflexivity|]. rewrite W2, I1, I3. reflexivity. }
  split. { split; [rewrite W2, W4; exact T9|]. intros b Hb. rewrite W3 in Hb. rewrite W2, I9. destruct Hb as [<-|[<-|[]]]; [rewrite I1|rewrite I2]; discriminate. }
  intros a Ha. assert (K : known_type (m_type (h a))) by (destruct Ha as [<-|[<-|[]]]; [left; exact T1|left; exact T2]).
  destruct (g2l_total (h a) 1 2 K) as [t Et]. unfold getDistanceToModule. rewrite Et. cbn [rmap]. eexists. reflexivity.
Qed.

(** At every time the modules have different IDs and getModule finds exactly them. *)
Theorem C24_lookup : forall w, tpc_reached w ->
  NoDup (map (fun a => getModuleID (w_heap w a)) (getModules (w_tpc w))) /\
  getNModules (w_tpc w) = Z.of_nat (List.length (getModules (w_tpc w))) /\
  (forall a, In a (getModules (w_tpc w)) -> getTPCCoordinateType (w_heap w a) = getCoordinateType (w_tpc w)) /\
  forall id, (exists a, In a (getModules (w_tpc w)) /\ getModuleID (w_heap w a) = id /\ getModule (w_tpc w) id = Ok a) \/
             ((forall a, In a (getModules (w_tpc w)) -> getModuleID (w_heap w a) <> id) /\
              exists e, getModule (w_tpc w) id = Throw (EGear e)).
Proof. exact module_lookup. Qed.
Print Assumptions C24_lookup.

(** addModule appends an acceptable module and refuses every other without effect. *)
Theorem C24_add : forall w a, tpc_reached w ->
  (accepts w a -> exists w', call_tpc w (TAdd (Some a)) = SOk w' tt /\
     getModules (w_tpc w') = getModules (w_tpc w) ++ [a] /\ w_heap w' = w_heap w /\
     getMaxDriftLength (w_tpc w') = getMaxDriftLength (w_tpc w) /\ getDriftVelocity (w_tpc w') = getDriftVelocity (w_tpc w) /\
     getCoordinateType (w_tpc w') = getCoordinateType (w_tpc w)) /\
  (~ accepts w a -> exists e, call_tpc w (TAdd (Some a)) = SThrow w (EGear e)) /\
  (exists e, call_tpc w (TAdd None) = SThrow w (EGear e)).
Proof. exact module_add. Qed.
Print Assumptions C24_add.

(** No other call changes the set of modules. *)
Theorem C24_other_calls : forall w c, (forall p, c <> TAdd p) -> (forall a p, c <> TLayout a p) ->
  forall w', after (call_tpc w c) = Some w' -> getModules (w_tpc w') = getModules (w_tpc w) /\
    forall id, getModule (w_tpc w') id = getModule (w_tpc w) id.
Proof. exact module_others. Qed.
Print Assumptions C24_other_calls.

(** setPadLayout makes a module with ID 0 if there is none, else throws. *)
Theorem C24_layout_set : forall w a p, tpc_reached w ->
  (getModules (w_tpc w) = [] -> exists w', call_tpc w (TLayout a (Some p)) = SOk w' tt /\
     getModules (w_tpc w') = [a] /\ w_heap w' a = new_module 0 p (getCoordinateType (w_tpc w)) 0 /\
     getModule (w_tpc w') 0 = Ok a /\ TpcModel.getPadLayout (w_heap w') (w_tpc w') = Ok a) /\
  (getModules (w_tpc w) <> [] -> exists e, call_tpc w (TLayout a (Some p)) = SThrow w (EGear e)).
Proof. exact layout_set. Qed.
Print Assumptions C24_layout_set.

(** The interface for TPCs with a single module. *)
Theorem C24_old_interface : forall w,
  (forall a, TpcModel.getPadLayout (w_heap w) (w_tpc w) = Ok a <->
     getModules (w_tpc w) = [a] /\ getAngle (w_heap w a) = 0 /\ getOffset (w_heap w a) = (0, 0)) /\
  (forall f, TpcModel.getReadoutFrequency (w_heap w) (w_tpc w) = Ok f <->
     exists a, getModules (w_tpc w) = [a] /\ TpcModuleModel.getReadoutFrequency (w_heap w a) = f).
Proof. exact old_interface. Qed.
Print Assumptions C24_old_interface.

(** The plane extent is the smallest box around the module extents. *)
Theorem C25_plane_extent : forall w, tpc_still w ->
  (getModules (w_tpc w) <> [] -> exists b, getPlaneExtent (w_tpc w) = Ok b /\
     is_box_hull (map (fun a => getModuleExtent (w_heap w a)) (getModules (w_tpc w))) b) /\
  (getModules (w_tpc w) = [] -> exists e, getPlaneExtent (w_tpc w) = Throw (EGear e)).
Proof. exact plane_extent. Qed.
Print Assumptions C25_plane_extent.

(** A module changed while in the TPC does not change the plane extent. *)
Theorem C25_plane_extent_stale_refuted : forall w a c w', after (call_tpc w (TMod a c)) = Some w' ->
  getPlaneExtent (w_tpc w') = getPlaneExtent (w_tpc w).
Proof. exact plane_extent_stale. Qed.
Print Assumptions C25_plane_extent_stale_refuted.

(** The first module at the smallest distance. *)
Theorem C26_nearest_module : forall w c0 c1 d,
  (forall a, In a (getModules (w_tpc w)) -> getDistanceToModule (w_heap w a) c0 c1 = Ok (d a)) ->
  (getModules (w_tpc w) <> [] -> exists a, getNearestModule (w_heap w) (w_tpc w) c0 c1 = Ok a /\
     first_min d (getModules (w_tpc w)) a) /\
  (getModules (w_tpc w) = [] -> exists e, getNearestModule (w_heap w) (w_tpc w) c0 c1 = Throw (EGear e)).
Proof. exact nearest_module. Qed.
Print Assumptions C26_nearest_module.

(** The nearest pad is the one of the first module whose nearest pad is at the smallest distance. *)
Theorem C26_nearest_pad : forall w fuel c0 c1 p d,
  (forall a, In a (getModules (w_tpc w)) -> module_getNearestPad fuel (w_heap w a) c0 c1 = Some (Ok (p a)) /\
     module_getDistanceToPad (w_heap w a) c0 c1 (p a) = Ok (d a)) ->
  (getModules (w_tpc w) <> [] -> exists a,
     getNearestPad fuel (w_heap w) (w_tpc w) c0 c1 = Some (Ok (mkG (p a) (getModuleID (w_heap w a)))) /\
     first_min d (getModules (w_tpc w)) a) /\
  (getModules (w_tpc w) = [] -> exists e, getNearestPad fuel (w_heap w) (w_tpc w) c0 c1 = Some (Throw (EGear e))).
Proof. exact nearest_pad. Qed.
Print Assumptions C26_nearest_pad.

(** A point is inside if it is inside one of the modules. *)
Theorem C26_inside : forall w fuel c0 c1,
  (forall b, (forall a, In a (getModules (w_tpc w)) -> TpcModuleModel.isInsideModule (w_heap w a) c0 c1 = Ok (b a)) ->
     isInsideModule (w_heap w) (w_tpc w) c0 c1 = Ok (existsb b (getModules (w_tpc w)))) /\
  (forall b, (forall a, In a (getModules (w_tpc w)) -> module_isInsideAnyPad fuel (w_heap w a) c0 c1 = Some (Ok (b a))) ->
     isInsidePad fuel (w_heap w) (w_tpc w) c0 c1 = Some (Ok (existsb b (getModules (w_tpc w))))).
Proof. exact inside_any. Qed.
Print Assumptions C26_inside.

(** The cathode, and the queries with z only see the modules on the side of the point. *)
Theorem C27_sides : forall w, tpc_still w -> exists cath,
  ((forall a, In a (getModules (w_tpc w)) -> getZPosition (w_heap w a) <> None) ->
   cath = cathode_of (hd None (zs (w_heap w) (filter (on_negative (w_heap w)) (getModules (w_tpc w)))))
                     (hd None (zs (w_heap w) (filter (on_positive (w_heap w)) (getModules (w_tpc w)))))
                     (getMaxDriftLength (w_tpc w))) /\
  forall c0 c1 z, let side := filter (if Rleb z cath then on_negative (w_heap w) else on_positive (w_heap w)) (getModules (w_tpc w)) in
    (side = [] -> exists e, getNearestModule3 (w_heap w) (w_tpc w) c0 c1 z = Throw (EGear e)) /\
    (forall d, side <> [] -> (forall a, In a side -> getDistanceToModule (w_heap w a) c0 c1 = Ok (d a)) ->
       exists a, getNearestModule3 (w_heap w) (w_tpc w) c0 c1 z = Ok a /\ first_min d side a) /\
    (forall b, (forall a, In a side -> TpcModuleModel.isInsideModule (w_heap w a) c0 c1 = Ok (b a)) ->
       isInsideModule3 (w_heap w) (w_tpc w) c0 c1 z = Ok (existsb b side)) /\
    (forall fuel b, (forall a, In a side -> module_isInsideAnyPad fuel (w_heap w a) c0 c1 = Some (Ok (b a))) ->
       isInsidePad3 fuel (w_heap w) (w_tpc w) c0 c1 z = Some (Ok (existsb b side))) /\
    (forall fuel, side = [] -> exists e, getNearestPad3 fuel (w_heap w) (w_tpc w) c0 c1 z = Some (Throw (EGear e))) /\
    (forall fuel p d, side <> [] -> (forall a, In a side -> module_getNearestPad fuel (w_heap w a) c0 c1 = Some (Ok (p a)) /\
         module_getDistanceToPad (w_heap w a) c0 c1 (p a) = Ok (d a)) ->
       exists a, getNearestPad3 fuel (w_heap w) (w_tpc w) c0 c1 z = Some (Ok (mkG (p a) (getModuleID (w_heap w a)))) /\ first_min d side a).
Proof. exact sides. Qed.
Print Assumptions C27_sides.

(** Copy construction never ends. *)
Theorem C28_copy_never_returns : forall fuel h next right, copy_tpc fuel h next right = None.
Proof. exact copy_tpc_never. Qed.
Print Assumptions C28_copy_never_returns.

(** Assignment never ends. *)
Theorem C28_assign_never_returns : forall fuel h next this right, assign_tpc fuel h next this right = None.
Proof. exact assign_tpc_never. Qed.
Print Assumptions C28_assign_never_returns.

(** A copy of a module answers every question like the original. *)
Theorem C28_module_clone : forall m, let c := module_clone m in
  (getModuleID c = getModuleID m /\ getTPCCoordinateType c = getTPCCoordinateType m /\ getOffset c = getOffset m /\
   getAngle c = getAngle m /\ getBorderWidth c = getBorderWidth m /\ getZPosition c = getZPosition m /\
   TpcModuleModel.getReadoutFrequency c = TpcModuleModel.getReadoutFrequency m /\
   getModuleExtent c = getModuleExtent m /\ getLocalModuleExtent c = getLocalModuleExtent m /\
   module_getPlaneExtent c = module_getPlaneExtent m) /\
  (forall a b, globalToLocal c a b = globalToLocal m a b) /\ (forall a b, localToGlobal c a b = localToGlobal m a b) /\
  (forall i, module_getPadCenter c i = module_getPadCenter m i) /\
  (forall fuel a b, module_getNearestPad fuel c a b = module_getNearestPad fuel m a b) /\
  (forall a b i, module_isInsidePad c a b i = module_isInsidePad m a b i) /\
  (forall fuel a b, module_isInsideAnyPad fuel c a b = module_isInsideAnyPad fuel m a b) /\
  (forall a b, TpcModuleModel.isInsideModule c a b = TpcModuleModel.isInsideModule m a b) /\
  (forall a b i, module_getDistanceToPad c a b i = module_getDistanceToPad m a b i) /\
  (forall a b, getDistanceToModule c a b = getDistanceToModule m a b).
Proof. exact module_clone_same. Qed.
Print Assumptions C28_module_clone.

(** Order of pad indices. *)
Theorem C30_order : 
  (forall a, gpi_lt a a = false) /\
  (forall a b c, gpi_lt a b = true -> gpi_lt b c = true -> gpi_lt a c = true) /\
  (forall a b, gpi_lt a b = true \/ gpi_eq a b = true \/ gpi_lt b a = true) /\
  (forall a b, gpi_lt a b = true -> gpi_eq a b = false /\ gpi_lt b a = false) /\
  (forall a b, gpi_eq a b = true <-> a = b) /\
  (forall a b, gpi_lt a b = true <-> (g_mod a < g_mod b)%Z \/ (g_mod a = g_mod b /\ (g_pad a < g_pad b)%Z)).
Proof. exact gpi_order. Qed.
Print Assumptions C30_order.
