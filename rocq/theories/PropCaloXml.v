(** Property theorems for C34: calorimeters in files *)
From Coq Require Import ZArith Reals List String Ascii Bool Lia Lra.
From Verif Require Import Base RBase XmlModel XmlSpec NumModel NumSpec NumProofs HxModel HxSpec HxProofs ParamsModel ParamsSpec
  ParXmlModel ParXmlSpec ParXmlProofs CaloModel CaloSpec CaloProofs CaloXmlModel CaloXmlSpec CaloXmlProofs.
From Verif Require TpcXmlSpec GearXmlSpec GearXmlProofs4.
Import ListNotations.
Open Scope R_scope.

(** Layers of two kinds, the first one at the inner radius: everything comes back. *)
Definition ex_layers : list calo_call := [CPos 170 3 1 10 10; CAdd 3 1 10 10; CAdd 5 2 20 20].
Example no_params_storable : storable (after []).
Proof. intros t k v G. destruct t; discriminate. Qed.
Example survivor_case : let v := getLayerLayout (calo_run (new_barrel 170 200 8 0) ex_layers) in
  gap_free 170 v /\ distinct_steps v /\ (forall l, In l v -> kept_layer l) /\ is_int 8 /\ (getNLayers v < 2147483648)%Z /\
  kept 170 /\ kept 200 /\ kept 0.
Proof.
  assert (K : forall n, (Z.abs n < 10 ^ 10)%Z -> kept (IZR n)) by (intros n H; apply whole_kept; exact H).
  cbn. split; [cbn; repeat split; lra|]. split.
  { apply distinct_cons. split; [intros _; repeat split|]. apply distinct_cons. split; [|apply distinct_short; cbn; lia].
    intros [[E|C] _]; cbn in *; [lra|]. exfalso. rewrite Rabs_left in C by lra. rewrite Rabs_pos_eq in C by lra. lra. }
  split.
  { intros l [<-|[<-|[<-|[]]]]; repeat split; cbn; apply K; reflexivity. }
  split; [unfold is_int; lia|]. split; [reflexivity|]. repeat split; apply K; reflexivity.
Qed.
(** The same layers added without a position: the first one starts at 0 instead of 170. *)
Example gap_case : ~ gap_free 170 (getLayerLayout (calo_run (new_barrel 170 200 8 0) (tl ex_layers))).
Proof. cbn. intros [H _]. lra. Qed.

(** A saved and loaded barrel has the same type, symmetry and offset angle and as many layers; the layers are the same if and only if they follow each other without gaps from the inner radius on, close consecutive layers are equal, and all numbers have at most ten digits; then the extent is the same too. *)
Theorem C34_barrel_survives : forall rMin zMax sym phi0 h hp,
  let c := calo_run (new_barrel rMin zMax sym phi0) h in let p := after hp in
  is_int sym -> (getNLayers (getLayerLayout c) < 2147483648)%Z -> storable p -> kept rMin -> kept zMax -> kept phi0 ->
  exists c' p', reload calo_toXML calo_fromXML (c, p) = Ok (c', p') /\
    getLayoutType c' = BARREL /\ getSymmetryOrder c' = sym /\ getPhi0 c' = phi0 /\
    getNLayers (getLayerLayout c') = getNLayers (getLayerLayout c) /\ gap_free rMin (getLayerLayout c') /\
    (getLayerLayout c' = getLayerLayout c <->
       gap_free rMin (getLayerLayout c) /\ distinct_steps (getLayerLayout c) /\ forall l, In l (getLayerLayout c) -> kept_layer l) /\
    (getLayerLayout c' = getLayerLayout c -> extent_of c' = extent_of c) /\
    (p' = p <-> forall t k v, do_get t p k = Ok v -> survives v).
Proof. exact barrel_survives. Qed.
Print Assumptions C34_barrel_survives.

(** The same for endcaps, whose layers start at zMin. *)
Theorem C34_endcap_survives : forall rMin rMax zMin sym phi0 h hp,
  let c := calo_run (new_endcap rMin rMax zMin sym phi0) h in let p := after hp in
  is_int sym -> (getNLayers (getLayerLayout c) < 2147483648)%Z -> storable p -> kept rMin -> kept rMax -> kept zMin -> kept phi0 ->
  exists c' p', reload calo_toXML calo_fromXML (c, p) = Ok (c', p') /\
    getLayoutType c' = ENDCAP /\ getSymmetryOrder c' = sym /\ getPhi0 c' = phi0 /\
    getNLayers (getLayerLayout c') = getNLayers (getLayerLayout c) /\ gap_free zMin (getLayerLayout c') /\
    (getLayerLayout c' = getLayerLayout c <->
       gap_free zMin (getLayerLayout c) /\ distinct_steps (getLayerLayout c) /\ forall l, In l (getLayerLayout c) -> kept_layer l) /\
    (getLayerLayout c' = getLayerLayout c -> extent_of c' = extent_of c) /\
    (p' = p <-> forall t k v, do_get t p k = Ok v -> survives v).
Proof. exact endcap_survives. Qed.
Print Assumptions C34_endcap_survives.

(** Whatever the calorimeter, the parameters that come back with it are those that come back on their own (C32). *)
Theorem C34_parameters_back : forall c hp y, storable (after hp) -> reload calo_toXML calo_fromXML (c, after hp) = Ok y -> TpcXmlSpec.came_back (after hp) (snd y).
Proof.
  intros c hp y S R. assert (P : GearXmlSpec.params_ok (after hp)) by (split; [exists hp; reflexivity | exact S]).
  destruct (GearXmlProofs4.calo_keeps (c, after hp) y P R) as [_ ->]. apply save_load; [apply after_sorted | apply storable_text; exact S].
Qed.
Print Assumptions C34_parameters_back.

(** Layers that grow slowly are all loaded with the size of the last one: the error in the thickness of the first layer is 50 n, with n up to 199 million. *)
Theorem C34_drift_refuted : forall n rMin zMax sym phi0, (1000000 + 50 * Z.of_nat n < 10 ^ 10)%Z -> is_int sym ->
  let c := calo_run (new_barrel rMin zMax sym phi0) (drift (S n) 1000000) in
  getNLayers (getLayerLayout c) = Z.of_nat (S n) /\ getThickness (getLayerLayout c) 0 = Ok 1000000 /\
  exists c' p', reload calo_toXML calo_fromXML (c, params_empty) = Ok (c', p') /\
    getThickness (getLayerLayout c') 0 = Ok (IZR (1000000 + 50 * Z.of_nat n)).
Proof. exact drift_collapses. Qed.
Print Assumptions C34_drift_refuted.
