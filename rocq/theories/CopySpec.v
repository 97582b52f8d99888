(** Saving and loading once more what was loaded from a saved file. *)
From Coq Require Import ZArith List String Ascii Bool Reals.
From Verif Require Import Base RBase VecModel XmlModel XmlSpec NumModel NumSpec HxModel HxSpec ParamsModel ParamsSpec ParXmlModel ParXmlSpec
  CaloModel CaloSpec CaloXmlModel CaloXmlSpec FpsModel ZpModel ZpSpec FtdModel FtdSpec TrkModel TrkXmlModel TrkXmlSpec GearXmlModel GearXmlSpec.
Import ListNotations.
Open Scope R_scope.

(** All numbers are zero or neither extremely small nor extremely large. *)
Definition ordinary_value (v : pval) : Prop :=
  match v with
  | VDouble x => normal x
  | VDoubles l => forall x, In x l -> normal x
  | _ => True
  end.
Definition ordinary_params (p : params) : Prop := forall t k v, do_get t p k = Ok v -> ordinary_value v.

(** Whatever comes back of [o] comes back unchanged when it is saved and loaded itself. *)
Definition settles {O} (write : O -> result xnode) (read : xnode -> result O) (o : O) : Prop :=
  forall y, reload write read o = Ok y -> reload write read y = Ok y.

(** ** Detectors with ordinary numbers *)
Definition ordinary_part (q : zpart) : Prop := normal (q_d q) /\ normal (q_off q) /\ normal (q_t q) /\ normal (q_len q) /\ normal (q_w q) /\ normal (q_rad q).
Definition ordinary_ladders (a : zargs) : Prop := is_int (za_n a) /\ normal (za_phi0 a) /\ ordinary_part (za_lad a) /\ ordinary_part (za_sen a).
Definition ordinary_disk (a : ftd_args) : Prop := disk_ints a /\
  normal (a_open a) /\ normal (a_phi0 a) /\ normal (a_alpha a) /\ normal (a_z a) /\ normal (a_zoff a) /\ normal (a_zsign a) /\
  normal (a_supR a) /\ normal (a_supT a) /\ normal (a_supMin a) /\ normal (a_supMax a) /\ normal (a_supW a) /\ normal (a_supRad a) /\
  normal (a_senR a) /\ normal (a_senT a) /\ normal (a_senMin a) /\ normal (a_senMax a) /\ normal (a_senW a) /\ normal (a_senRad a).
Definition ordinary_plate (p : plate) : Prop := forall f, normal (pget f p).
Definition ordinary_sens (e : sens) : Prop := forall f, normal (sget f e).
Definition ordinary_planes (s : siplanes) : Prop := si_ok s /\ (forall l, In l (si_l s) -> ordinary_plate l) /\ (forall e, In e (si_s s) -> ordinary_sens e) /\
  ordinary_plate (si_dl s) /\ ordinary_sens (si_ds s).
Definition ordinary_material (m : smat) : Prop := normal (sm_A m) /\ normal (sm_Z m) /\ normal (sm_density m) /\ normal (sm_radLength m) /\ normal (sm_intLength m).
Definition ordinary_layer (l : layer) : Prop :=
  normal (L_Thickness l) /\ normal (L_AbsorberThickness l) /\ normal (L_CellSize0 l) /\ normal (L_CellSize1 l).

Definition ordinary_disk_of_pads (l : fps) : Prop :=
  normal (f_rMin l) /\ normal (f_rMax l) /\ normal (f_padHeight l) /\ normal (f_padWidth l) /\ normal (f_padGap l) /\ normal (f_phiMax l).

(** ** Everything in a manager *)
Definition slot_settles {O} (write : O -> result xnode) (read : xnode -> result O) (o : option O) : Prop := forall x, o = Some x -> settles write read x.
Definition all_settle (g : content) : Prop :=
  slot_settles field_toXML field_fromXML (g_field g) /\
  slot_settles TpcXmlModel.tpc_toXML TpcXmlModel.tpc_fromXML (g_tpc g) /\
  (forall s, slot_settles calo_toXML calo_fromXML (g_calo g s)) /\
  (forall s, slot_settles zp_toXML zp_fromXML (g_zp g s)) /\
  slot_settles ftd_toXML ftd_fromXML (g_ftd g) /\
  slot_settles tp_toXML tp_fromXML (g_tp g) /\
  slot_settles si_toXML si_fromXML (g_si g) /\
  (forall k p, sm_find k (g_generic g) = Some p -> ordinary_params p) /\
  (forall k, slot_settles smat_toXML smat_fromXML (sm_find k (g_mat g))).

(** ** Copies of copies *)
Fixpoint copies (k : nat) (o : calo_obj) : result calo_obj :=
  match k with O => Ok o | S k' => rbind (reload calo_toXML calo_fromXML o) (copies k') end.
(** [n + 1] layers whose thicknesses alternate; the last one has 100008 *)
Definition swing (n : nat) : R := if Nat.even n then 100015 else 100000.
Fixpoint zigzag (n : nat) : list calo_call :=
  match n with O => [CAdd 100008 1 1 1] | S n' => CAdd (swing n') 1 1 1 :: zigzag n' end.
