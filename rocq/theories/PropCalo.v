(** C19: calorimeter layers. *)
From Coq Require Import ZArith List String Bool Reals Lra Lia.
From Verif Require Import Base RBase CaloModel CaloSpec CaloProofs.
Import ListNotations.
Open Scope R_scope.

(** A layer at 100, two added ones, with the extent asked in between. *)
Example three_layers : let h := [CPos 100 2 10 10 1; CExt; CAdd 3 10 10 1; CAdd 4 5 5 2] in
  List.length (layers_of h) = 3%nat /\ nth_error (layers_of h) 2 = Some (CAdd 4 5 5 2) /\
  nth_error (starts 0 h) 2 = Some (100 + 2 + 3) /\ ends 0 h = 109.
Proof. cbn. repeat split; lra. Qed.
Example added_layers : let h := [CAdd 3 10 10 1; CAdd 4 5 5 2] in (forall k, In k h -> added k) /\ nth_error (starts 0 h) 1 = Some (0 + 3).
Proof. cbn. split; [intros k [<-|[<-|[]]]; cbn; exact I|reflexivity]. Qed.

(** After any history the layers are those added, in order, at the stated places; other indices throw. *)
Theorem C19_layers : forall c0 h, c_layout c0 = [] ->
  let v := getLayerLayout (calo_run c0 h) in
  getNLayers v = Z.of_nat (List.length (layers_of h)) /\
  (forall i k s, nth_error (layers_of h) i = Some k -> nth_error (starts 0 h) i = Some s ->
     let n := Z.of_nat i in getDistance v n = Ok s /\ getThickness v n = Ok (thick k) /\
     match k with
     | CAdd _ c0 c1 a | CPos _ _ c0 c1 a =>
         getCellSize0 v n = Ok c0 /\ getCellSize1 v n = Ok c1 /\ getAbsorberThickness v n = Ok a
     | CExt => False
     end) /\
  (forall n, (n < 0 \/ Z.of_nat (List.length (layers_of h)) <= n)%Z ->
     exists e, getDistance v n = Throw e /\ getThickness v n = Throw e /\ getCellSize0 v n = Throw e /\
       getCellSize1 v n = Throw e /\ getAbsorberThickness v n = Throw e).
Proof. exact calo_layers. Qed.
Print Assumptions C19_layers.

(** An added layer starts where its predecessor ends. *)
Theorem C19_touch : forall h i s s' k, nth_error (layers_of h) i = Some k ->
  nth_error (starts 0 h) i = Some s -> nth_error (starts 0 h) (S i) = Some s' ->
  (forall d t c0 c1 a, nth_error (layers_of h) (S i) <> Some (CPos d t c0 c1 a)) -> s' = s + thick k.
Proof. exact calo_touch. Qed.
Print Assumptions C19_touch.

(** Without positioned layers the distance is the sum of the thicknesses before. *)
Theorem C19_sum : forall h i s, (forall k, In k h -> added k) ->
  nth_error (starts 0 h) i = Some s -> s = total (firstn i (layers_of h)).
Proof. exact calo_sum. Qed.
Print Assumptions C19_sum.

(** The extent of a barrel after any history (which may contain calls of getExtent). *)
Theorem C19_barrel_extent : forall rMin zMax sym phi0 h,
  let c := calo_run (new_barrel rMin zMax sym phi0) h in
  getLayoutType c = BARREL /\ getSymmetryOrder c = sym /\ getPhi0 c = phi0 /\
  exists c', getExtent c = SOk c' [rMin; match layers_of h with [] => rMin | _ => ends 0 h end; 0; zMax].
Proof. exact calo_barrel. Qed.
Print Assumptions C19_barrel_extent.

(** The extent of an endcap. *)
Theorem C19_endcap_extent : forall rMin rMax zMin sym phi0 h,
  let c := calo_run (new_endcap rMin rMax zMin sym phi0) h in
  getLayoutType c = ENDCAP /\ getSymmetryOrder c = sym /\ getPhi0 c = phi0 /\
  exists c', getExtent c = SOk c' [rMin; rMax; zMin; match layers_of h with [] => zMin | _ => ends 0 h end].
Proof. exact calo_endcap. Qed.
Print Assumptions C19_endcap_extent.

(** The first layer added without a position starts at 0, not at the inner radius: a thin barrel then has rMax < rMin. *)
Theorem C19_first_layer_ignores_rmin : forall rMin zMax sym phi0 t c0 c1 a, t < rMin ->
  exists c' rMax, getExtent (calo_run (new_barrel rMin zMax sym phi0) [CAdd t c0 c1 a]) = SOk c' [rMin; rMax; 0; zMax] /\ rMax < rMin.
Proof. exact calo_first_at_zero. Qed.
Print Assumptions C19_first_layer_ignores_rmin.
