(** C03, C04, C05, C06: the detector manager. *)
From Coq Require Import ZArith List String Reals Sorted.
From Verif Require Import Base ParamsModel ParamsSpec MgrModel MgrSpec MgrProofs.
Import ListNotations.
Open Scope list_scope.
Open Scope string_scope.

(** C03 (detector slots): after any calls, a getter returns the object of the last call of the
    matching setter; it throws if there was none or that call passed null. *)
Theorem C03_slots : forall (hp : heap) (h : list call) (s : mstate),
  run h (fresh hp) = Some s -> forall d : detector,
  (exists a h1 h2, h = (h1 ++ CSet d (Some a) :: h2)%list /\ (forall q, ~ In (CSet d q) h2) /\
     get_det d (st_mgr s) = Ok a) \/
  (((forall q, ~ In (CSet d q) h) \/
    (exists h1 h2, h = (h1 ++ CSet d None :: h2)%list /\ forall q, ~ In (CSet d q) h2)) /\
   exists msg, get_det d (st_mgr s) = Throw (EUnknownParameter msg)).
Proof. exact slots_history. Qed.
Print Assumptions C03_slots.

(** C03 (generic parameters): the same per key, null objects being ignored; the key listing is
    exact. *)
Theorem C03_generic : forall (hp : heap) (h : list call) (s : mstate),
  run h (fresh hp) = Some s -> forall k : string,
  (exists a h1 h2, h = (h1 ++ CGeneric k (Some a) :: h2)%list /\
     (forall b, ~ In (CGeneric k (Some b)) h2) /\
     getGearParameters (st_mgr s) k = Ok a /\ In k (getGearParameterKeys (st_mgr s))) \/
  ((forall b, ~ In (CGeneric k (Some b)) h) /\
   (exists msg, getGearParameters (st_mgr s) k = Throw (EUnknownParameter msg)) /\
   ~ In k (getGearParameterKeys (st_mgr s))).
Proof. exact generic_history. Qed.
Print Assumptions C03_generic.

Theorem C03_keys_sorted : forall (hp : heap) (h : list call) (s : mstate),
  run h (fresh hp) = Some s -> StronglySorted slt (getGearParameterKeys (st_mgr s)).
Proof. exact map_sorted. Qed.
Print Assumptions C03_keys_sorted.

(** C03 (detector name) *)
Theorem C03_detector_name : forall (hp : heap) (h : list call) (s : mstate),
  run h (fresh hp) = Some s ->
  (exists n h1 h2, h = (h1 ++ CName n :: h2)%list /\ (forall m, ~ In (CName m) h2) /\
     n <> "" /\ getDetectorName (st_mgr s) = Ok n) \/
  (((forall m, ~ In (CName m) h) \/
    (exists h1 h2, h = (h1 ++ CName "" :: h2)%list /\ forall m, ~ In (CName m) h2)) /\
   exists msg, getDetectorName (st_mgr s) = Throw (EUnknownParameter msg)).
Proof. exact detname_history. Qed.
Print Assumptions C03_detector_name.

(** A heap in which the first ten addresses hold fresh objects, named alike in pairs. *)
Definition wheap : heap :=
  mkHeap (fun a => (1 <=? a)%Z && (a <=? 10)%Z)%bool (fun _ => params_empty)
         (fun a => if (a =? 5)%Z then "iron" else if (a =? 6)%Z then "iron" else "air").
Definition wcalls : list call :=
  [CSet SIT (Some 1%Z); CGeneric "mask" (Some 2%Z); CSet SET (Some 3%Z); CSet SIT (Some 4%Z);
   CMaterial (Some 5%Z); CMaterial (Some 6%Z); CName "ILD"; CSet Lcal (Some 7%Z);
   CSet TPC (Some 8%Z); CSet TPC (Some 9%Z)].

Example C03_witness :
  match run wcalls (fresh wheap) with
  | None => False
  | Some s =>
      get_det SIT (st_mgr s) = Ok 4%Z /\ get_det SET (st_mgr s) = Ok 3%Z /\
      get_det VXD (st_mgr s) = Throw (EUnknownParameter "No VXDParameters set ") /\
      getGearParameters (st_mgr s) "mask" = Ok 2%Z /\ getDetectorName (st_mgr s) = Ok "ILD" /\
      getSimpleMaterial (st_mgr s) "iron" = Ok 5%Z
  end.
Proof. vm_compute. repeat split. Qed.

(** C04: setting a forward calorimeter makes it carry a beam crossing angle: the one it had or
    0.0. Nothing else about any object changes. *)
Theorem C04_beam_crossing_angle : forall (d : detector) (a : Z) (s : mstate),
  is_forward d = true -> h_live (st_heap s) a = true ->
  exists s', set_det d (Some a) s = SOk s' tt /\
    get_det d (st_mgr s') = Ok a /\
    (match getDoubleVal (h_params (st_heap s) a) "beam_crossing_angle" with
     | Ok r => getDoubleVal (h_params (st_heap s') a) "beam_crossing_angle" = Ok r
     | _ => getDoubleVal (h_params (st_heap s') a) "beam_crossing_angle" = Ok 0%R
     end) /\
    (forall t k, ~ (t = TDouble /\ k = "beam_crossing_angle") ->
       do_get t (h_params (st_heap s') a) k = do_get t (h_params (st_heap s) a) k) /\
    (forall b, b <> a -> h_params (st_heap s') b = h_params (st_heap s) b) /\
    (forall b, h_live (st_heap s') b = h_live (st_heap s) b).
Proof. exact crossing_angle. Qed.
Print Assumptions C04_beam_crossing_angle.

Example C04_witness :
  is_forward LHcal = true /\ h_live (st_heap (fresh wheap)) 7%Z = true /\
  getDoubleVal (h_params (st_heap (fresh wheap)) 7%Z) "beam_crossing_angle"
    = Throw (EUnknownParameter "beam_crossing_angle").
Proof. repeat split. Qed.

(** C05: if no object is handed over twice, all handed objects are live and calls that need an
    object get one, then neither the calls nor the destruction of the manager misuse the heap, and
    exactly the objects in [released] are deleted: each once, all others never. *)
Theorem C05_destruction_exact : forall (hp : heap) (h : list call),
  NoDup (flat_map handed h) ->
  (forall a, In a (flat_map handed h) -> h_live hp a = true) ->
  (forall c, In c h -> has_object c) ->
  exists s hp', run h (fresh hp) = Some s /\ destroy s = Some hp' /\
    forall a, h_live hp' a = true <-> h_live hp a = true /\ ~ released (h_matName hp) h a.
Proof. exact destroy_exact. Qed.
Print Assumptions C05_destruction_exact.

Lemma wcalls_ok : NoDup (flat_map handed wcalls) /\
  (forall a, In a (flat_map handed wcalls) -> h_live wheap a = true) /\
  (forall c, In c wcalls -> has_object c).
Proof.
  repeat split.
  - simpl. repeat (constructor; [simpl; intuition discriminate|]). constructor.
  - intros a Ha. simpl in Ha. repeat destruct Ha as [<-|Ha]; try reflexivity. destruct Ha.
  - apply Forall_forall. repeat constructor.
Qed.
(** The live addresses among [l] after the calls [h] and the destruction of the manager. *)
Definition survivors (hp : heap) (h : list call) (l : list Z) : option (list bool) :=
  match run h (fresh hp) with
  | Some s => match destroy s with Some hp' => Some (map (h_live hp') l) | None => None end
  | None => None
  end.
Example C05_witness : survivors wheap wcalls [1; 2; 3; 4; 5; 6; 7; 8; 9; 10]%Z =
  Some [true; false; false; false; false; true; false; false; false; true].
Proof. vm_compute. reflexivity. Qed.

(** C05, full claim refuted: an object replaced in an ordinary slot is never deleted (address 1
    above is still live at the end although the manager was given it). *)
Theorem C05_every_object_deleted_refuted : exists hp h a,
  NoDup (flat_map handed h) /\ (forall b, In b (flat_map handed h) -> h_live hp b = true) /\
  In a (flat_map handed h) /\ survivors hp h [a] = Some [true].
Proof.
  exists wheap, [CSet SIT (Some 1%Z); CSet SIT (Some 2%Z)], 1%Z. split; [|split; [|split]].
  - simpl. repeat (constructor; [simpl; intuition discriminate|]). constructor.
  - apply Forall_forall. repeat constructor.
  - simpl. auto.
  - vm_compute. reflexivity.
Qed.
Print Assumptions C05_every_object_deleted_refuted.

(** C05: without the no-aliasing hypothesis destruction deletes twice: one object in two slots. *)
Theorem C05_shared_object_refuted : exists hp s,
  run [CSet EcalBarrel (Some 1%Z); CSet EcalEndcap (Some 1%Z)] (fresh hp) = Some s /\
  destroy s = None.
Proof. exists wheap. eexists. split; [reflexivity|]. vm_compute. reflexivity. Qed.
Print Assumptions C05_shared_object_refuted.

(** C05: setting the same TPC object again leaves the getter with a deleted object. *)
Theorem C05_same_tpc_twice_refuted : exists hp s,
  run [CSet TPC (Some 1%Z); CSet TPC (Some 1%Z)] (fresh hp) = Some s /\
  get_det TPC (st_mgr s) = Ok 1%Z /\ h_live (st_heap s) 1%Z = false /\ destroy s = None.
Proof. exists wheap. eexists. split; [reflexivity|]. vm_compute. repeat split. Qed.
Print Assumptions C05_same_tpc_twice_refuted.

(** C06: a material name is bound to the first material registered under it, for ever; the name
    listing is exact and sorted. *)
Theorem C06_materials : forall (hp : heap) (h : list call) (s : mstate),
  run h (fresh hp) = Some s -> forall n : string,
  (exists a h1 h2, h = (h1 ++ CMaterial (Some a) :: h2)%list /\ h_matName hp a = n /\
     (forall b, In (CMaterial (Some b)) h1 -> h_matName hp b <> n) /\
     getSimpleMaterial (st_mgr s) n = Ok a /\ In n (getMaterialNames (st_mgr s))) \/
  ((forall b, In (CMaterial (Some b)) h -> h_matName hp b <> n) /\
   (exists msg, getSimpleMaterial (st_mgr s) n = Throw (EUnknownParameter msg)) /\
   ~ In n (getMaterialNames (st_mgr s))).
Proof. exact material_history. Qed.
Print Assumptions C06_materials.

Theorem C06_names_sorted : forall (hp : heap) (h : list call) (s : mstate),
  run h (fresh hp) = Some s -> StronglySorted slt (getMaterialNames (st_mgr s)).
Proof. exact mat_sorted. Qed.
Print Assumptions C06_names_sorted.

(** C06: registering a bound name throws and changes nothing. *)
Theorem C06_duplicate_refused : forall (a b : Z) (s : mstate),
  h_live (st_heap s) a = true ->
  getSimpleMaterial (st_mgr s) (h_matName (st_heap s) a) = Ok b ->
  exists msg, registerSimpleMaterial (Some a) s = SThrow s (EGear msg).
Proof. exact material_duplicate. Qed.
Print Assumptions C06_duplicate_refused.

Example C06_witness : exists s, run [CMaterial (Some 5%Z)] (fresh wheap) = Some s /\
  h_live (st_heap s) 6%Z = true /\
  getSimpleMaterial (st_mgr s) (h_matName (st_heap s) 6%Z) = Ok 5%Z.
Proof. eexists. split; [reflexivity|]. split; reflexivity. Qed.
