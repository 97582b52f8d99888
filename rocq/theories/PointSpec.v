(** What C69-C72 say, without the model's state. *)
From Coq Require Import ZArith List Bool Reals String.
From Verif Require Import Base RBase VecModel PointModel.
Import ListNotations.
Open Scope R_scope.

(** A geometry: wherever a node is found, its branch leads up to the top node, and neither the top node nor its
    volume lies inside itself. *)
Definition sound (w : world) : Prop := forall p b, w_find w p = Some b ->
  exists inner, b = (inner ++ [w_top w])%list /\
  forall n, In n inner -> pn_addr n <> pn_addr (w_top w) /\ pv_addr n <> pv_addr (w_top w).

(** The node at a point, and the nodes that contain it. *)
Definition lies_in (w : world) (p : vec) (n : pnode) (outer : list pnode) : Prop := w_find w p = Some (n :: outer).
Definition lies_outside (w : world) (p : vec) : Prop := w_find w p = None.

(** The right answer to a query about a point. *)
Inductive right_answer (w : world) (p : vec) : pquery -> outcome panswer -> Prop :=
| ra_name : forall n o, lies_in w p n o -> right_answer w p QMaterialName (Gives (PText (pm_name (pn_mat n))))
| ra_density : forall n o, lies_in w p n o -> right_answer w p QDensity (Gives (PNumber (pm_density (pn_mat n))))
| ra_temperature : forall n o, lies_in w p n o -> right_answer w p QTemperature (Gives (PNumber (pm_temperature (pn_mat n))))
| ra_pressure : forall n o, lies_in w p n o -> right_answer w p QPressure (Gives (PNumber (pm_pressure (pn_mat n))))
| ra_radlen : forall n o, lies_in w p n o -> right_answer w p QRadlen (Gives (PNumber (pm_rad (pn_mat n))))
| ra_intlen : forall n o, lies_in w p n o -> right_answer w p QIntlen (Gives (PNumber (pm_int (pn_mat n))))
| ra_local : forall n o, lies_in w p n o -> right_answer w p QLocalPosition (Gives (PVector (w_local w (n :: o) p)))
| ra_logical : forall n o, lies_in w p n o -> right_answer w p QLogical (Gives (PNames (pv_name n :: map pv_name o)))
| ra_physical : forall n o, lies_in w p n o -> right_answer w p QPhysical (Gives (PNames (pn_name n :: map pn_name o)))
| ra_outside : forall q, lies_outside w p ->
    In q [QMaterialName; QDensity; QTemperature; QPressure; QRadlen; QIntlen; QLocalPosition; QLogical; QPhysical] ->
    right_answer w p q (Raises (EGear "OutsideGeometryException"))
| ra_unsupported : forall q, In q [QCellID; QB; QE; QRegion; QIsTracker; QIsCalorimeter] ->
    right_answer w p q (Raises (ENotImplemented "not implemented yet in TGeoGearPointProperties")).

(** Where a history leaves the manager: a material query leaves it at the branch of its point (at the top node
    when that is outside), a list of volumes leaves it at the top node. *)
Definition material_query (q : pquery) : Prop := In q [QMaterialName; QDensity; QTemperature; QPressure; QRadlen; QIntlen].
Definition list_query (q : pquery) : Prop := In q [QLogical; QPhysical].
Inductive leaves_at (w : world) : list event -> branch -> Prop :=
| la_new : leaves_at w [] [w_top w]
| la_moved : forall h b, leaves_at w (h ++ [Moved b])%list b
| la_material : forall h q p b, material_query q -> w_find w p = Some b -> leaves_at w (h ++ [Called q p])%list b
| la_outside : forall h q p, material_query q \/ list_query q -> lies_outside w p -> leaves_at w (h ++ [Called q p])%list [w_top w]
| la_list : forall h q p b, list_query q -> w_find w p = Some b -> leaves_at w (h ++ [Called q p])%list [w_top w]
| la_same : forall h q p b, ~ material_query q -> ~ list_query q -> leaves_at w h b -> leaves_at w (h ++ [Called q p])%list b.

(** A call of getMaterialName that answered. *)
Definition named (w : world) (e : event) (t : string) : Prop :=
  exists p n o, e = Called QMaterialName p /\ lies_in w p n o /\ t = pm_name (pn_mat n).

(** The file a plugin object is configured with: the last value given to "GDMLFileName". *)
Inductive configured : list mevent -> string -> Prop :=
| cf_none : forall l, (forall k v, In (MConfig k v) l -> k <> "GDMLFileName"%string) -> configured l EmptyString
| cf_last : forall l v l', (forall k v', In (MConfig k v') l' -> k <> "GDMLFileName"%string) ->
    configured (l ++ MConfig "GDMLFileName" v :: l')%list v.
(** The geometry read by the last initialisation that succeeded. *)
Definition last_read (fs : files) (l : list mevent) (w : world) : Prop := exists l1 l2 f,
  l = (l1 ++ MInitialize :: l2)%list /\ configured l1 f /\ fs f = Some w /\
  forall l3 l4 f', l2 = (l3 ++ MInitialize :: l4)%list -> configured (l1 ++ MInitialize :: l3)%list f' -> fs f' = None.

(** Sums, and points in centimetres. *)
Fixpoint total (l : list R) : R := match l with [] => 0 | x :: l' => x + total l' end.
Definition in_cm (p : vec) : vec := mkVec (vx p / 10) (vy p / 10) (vz p / 10).
(** The steps Mokka reports between two points given in mm. *)
Definition way (mk : mokka) (p0 p1 : vec) : list cstep := mk_beam mk (in_cm p0) (in_cm p1) (in_cm (vsub p1 p0)).
(** What the calls of a history for a list of names (thicknesses) asked for, one after the other. *)
Definition names_asked (mk : mokka) (h : list cevent) : list string :=
  flat_map (fun e => match e with CDistance CNames p0 p1 => map cs_mat (way mk p0 p1) | _ => [] end) h.
Definition lengths_asked (mk : mokka) (h : list cevent) : list R :=
  flat_map (fun e => match e with CDistance CThicknesses p0 p1 => map cs_len (way mk p0 p1) | _ => [] end) h.
