(** Property theorems for C67: beam telescopes *)
From Coq Require Import ZArith Reals List String Bool Lia Lra.
From Verif Require Import Base RBase TrkModel TrkSpec TrkProofs.
Import ListNotations.
Open Scope R_scope.

(** Two planes; the second one is moved and rotated, its ID is changed, and a third one, which is not there, is refused. *)
Definition ex_plate (i : Z) : plate := mkPl i 1 2 3 0 0 0 10 20 4 94.
Definition ex_sens (i : Z) : sens := mkSe (ex_plate i) 256 512 2 3 5 5 5 1 0 0 1.
Definition ex_ops : list tele_op :=
  [Add (ex_plate 1) (ex_sens 11); Add (ex_plate 2) (ex_sens 12); Write (Layer FZ) 1 (inr 300); Write (Sensitive (SPlate FRXY)) 1 (inr 45);
   Write Layer_ID 1 (inl 77%Z); Write (Layer FZ) 2 (inr 9)].
Example tele_ops : let s := tele_run (new_siplanes 1 2 2) ex_ops in
  si_getNLayers s = 2%Z /\ si_getLayer FZ s 1 = Ok 300 /\ si_getLayer FZ s 0 = Ok 3 /\ si_getSensitive (SPlate FRXY) s 1 = Ok 45 /\
  si_getLayer FRXY s 1 = Ok 0 /\ si_getID s 1 = Ok 77%Z /\ si_getID s 2 = Throw (EOutOfRange "vector::at").
Proof. repeat split. Qed.
(** Three layers, two with the same ID. *)
Example same_ID : tp_getLayerByID (tp_adds (new_tplanes 0 0 3) [mkTL 1 "a" [] []; mkTL 2 "b" [] []; mkTL 2 "c" [] []]) 2 = Some (mkTL 2 "b" [] []).
Proof. reflexivity. Qed.

(** Whatever planes are added to a telescope and whatever setters are called, every getter returns the number last written to that column of that plane, or the one the plane was added with; an index out of range is answered with an exception. *)
Theorem C67_telescope_table : forall id type num os c i, let s := tele_run (new_siplanes id type num) os in let t := fold_left table_step os [] in
  si_getNLayers s = Z.of_nat (List.length t) /\
  read c s i = match (if (0 <=? i)%Z then nth_error t (Z.to_nat i) else None) with Some row => Ok (row c) | None => Throw (EOutOfRange "vector::at") end.
Proof. exact telescope_table. Qed.
Print Assumptions C67_telescope_table.

(** A setter succeeds exactly for the planes that exist, and leaves the rest of the description alone. *)
Theorem C67_telescope_refused : forall id type num os c i v, let s := tele_run (new_siplanes id type num) os in
  fits c v = true -> exists r, write c s i v = Some r /\
   (0 <= i < si_getNLayers s -> exists s', r = Ok s' /\ rest s' = rest s)%Z /\ (~ (0 <= i < si_getNLayers s)%Z -> r = Throw (EOutOfRange "vector::at")).
Proof. exact telescope_refused. Qed.
Print Assumptions C67_telescope_refused.

(** The short form of addLayer sets both resolutions in the parameters but leaves them 0 in the layout; everything else is the same. *)
Theorem C67_overloads_refuted : forall s lID lX lY lZ lSX lSY lT lRad sID sX sY sZ sSX sSY sT nX nY pX pY res r1 r2 r3 r4 sRad,
  let a := si_addLayer_old s lID lX lY lZ lSX lSY lT lRad sID sX sY sZ sSX sSY sT nX nY pX pY res r1 r2 r3 r4 sRad in
  let b := layout_addLayer_old s lID lX lY lZ lSX lSY lT lRad sID sX sY sZ sSX sSY sT nX nY pX pY res r1 r2 r3 r4 sRad in
  List.length (si_l s) = List.length (si_s s) ->
  forall f, read (Sensitive f) a (si_getNLayers s) = (if column_eq_dec (Sensitive f) (Sensitive SResX) then Ok (inr res)
            else if column_eq_dec (Sensitive f) (Sensitive SResY) then Ok (inr res) else read (Sensitive f) b (si_getNLayers s)) /\
  read (Sensitive SResX) b (si_getNLayers s) = Ok (inr 0) /\ read (Sensitive SResY) b (si_getNLayers s) = Ok (inr 0).
Proof. exact old_overloads. Qed.
Print Assumptions C67_overloads_refuted.

(** Tracker planes are found by index in the order they were added; other indices give a null pointer. *)
Theorem C67_planes_by_index : forall id type num ls i, let t := tp_adds (new_tplanes id type num) ls in (0 <= i)%Z ->
  tp_getNLayers t = Z.of_nat (List.length ls) /\ tp_getLayer t i = nth_error ls (Z.to_nat i).
Proof. exact planes_by_index. Qed.
Print Assumptions C67_planes_by_index.

(** Tracker planes are found by ID; the first one added is meant if several have it. *)
Theorem C67_planes_by_ID : forall id type num ls k, let t := tp_adds (new_tplanes id type num) ls in
  (forall l, tp_getLayerByID t k = Some l <-> exists a b, ls = a ++ l :: b /\ tl_ID l = k /\ forall x, In x a -> tl_ID x <> k) /\
  (tp_getLayerByID t k = None <-> forall l, In l ls -> tl_ID l <> k).
Proof. exact planes_by_ID. Qed.
Print Assumptions C67_planes_by_ID.

(** The ID of the layout that setID sets can never be read. *)
Theorem C67_layout_ID_refuted : forall t v, tp_getID (tp_setID t v) = 0%Z.
Proof. exact layout_ID_lost. Qed.
Print Assumptions C67_layout_ID_refuted.
