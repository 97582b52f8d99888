(** What becomes of trackers, fields and materials that are saved and loaded. *)
From Coq Require Import ZArith List String Ascii Bool Reals.
From Verif Require Import Base RBase VecModel XmlModel XmlSpec NumModel NumSpec ParamsModel ParamsSpec ParXmlSpec ZpModel FtdModel TrkModel TrkXmlModel.
Import ListNotations.
Open Scope R_scope.

(** a number written to a file and read again; C33 says when this is the same number *)
Definition reread (x : R) : R := atof (print_double x).

(** all values of a set of parameters come back *)
Definition survive (p : params) : Prop := forall t k v, do_get t p k = Ok v -> survives v.
(** a text that the file format can hold *)
Definition clean_text (s : string) : Prop := no_nul s /\ charref_free s.

(** ** Ladders *)
Definition reread_part (q : zpart) : zpart :=
  mkZP (reread (q_d q)) (reread (q_off q)) (reread (q_t q)) (reread (q_len q)) (reread (q_w q)) (reread (q_rad q)).
Definition reread_ladders (a : zargs) : zargs := mkZA (za_n a) (reread (za_phi0 a)) (reread_part (za_lad a)) (reread_part (za_sen a)).
Definition kept_part (q : zpart) : Prop := kept (q_d q) /\ kept (q_off q) /\ kept (q_t q) /\ kept (q_len q) /\ kept (q_w q) /\ kept (q_rad q).
Definition kept_ladders (a : zargs) : Prop := kept (za_phi0 a) /\ kept_part (za_lad a) /\ kept_part (za_sen a).

(** ** Disks *)
Definition reread_disk (a : ftd_args) : ftd_args :=
  mkFA (a_nPetals a) (a_nSensors a) (a_double a) (a_type a) (reread (a_open a)) (reread (a_phi0 a)) (reread (a_alpha a))
    (reread (a_z a)) (reread (a_zoff a)) (reread (a_zsign a))
    (reread (a_supR a)) (reread (a_supT a)) (reread (a_supMin a)) (reread (a_supMax a)) (reread (a_supW a)) (reread (a_supRad a))
    (reread (a_senR a)) (reread (a_senT a)) (reread (a_senMin a)) (reread (a_senMax a)) (reread (a_senW a)) (reread (a_senRad a)).
Definition kept_disk (a : ftd_args) : Prop :=
  kept (a_open a) /\ kept (a_phi0 a) /\ kept (a_alpha a) /\ kept (a_z a) /\ kept (a_zoff a) /\ kept (a_zsign a) /\
  kept (a_supR a) /\ kept (a_supT a) /\ kept (a_supMin a) /\ kept (a_supMax a) /\ kept (a_supW a) /\ kept (a_supRad a) /\
  kept (a_senR a) /\ kept (a_senT a) /\ kept (a_senMin a) /\ kept (a_senMax a) /\ kept (a_senW a) /\ kept (a_senRad a).
Definition disk_ints (a : ftd_args) : Prop := is_int (a_nPetals a) /\ is_int (a_nSensors a).
(** PIXEL or STRIP *)
Definition disk_type (a : ftd_args) : Prop := a_type a = 1%Z \/ a_type a = 2%Z.

(** ** Planes *)
Definition reread_plate (p : plate) : plate :=
  mkPl (pl_ID p) (reread (pl_X p)) (reread (pl_Y p)) (reread (pl_Z p)) (reread (pl_RXY p)) (reread (pl_RZX p)) (reread (pl_RZY p))
    (reread (pl_SX p)) (reread (pl_SY p)) (reread (pl_T p)) (reread (pl_Rad p)).
Definition unrotated (p : plate) : plate :=
  mkPl (pl_ID p) (pl_X p) (pl_Y p) (pl_Z p) 0 0 0 (pl_SX p) (pl_SY p) (pl_T p) (pl_Rad p).
Definition kept_plate (p : plate) : Prop := forall f, kept (pget f p).
(** the sensitive part with its rotation lost and given resolutions *)
Definition reread_sens (e : sens) (rx ry : R) : sens :=
  mkSe (reread_plate (unrotated (se_plate e))) (se_NX e) (se_NY e) (reread (se_PX e)) (reread (se_PY e)) (reread (se_Res e)) rx ry
    (reread (se_R1 e)) (reread (se_R2 e)) (reread (se_R3 e)) (reread (se_R4 e)).
Definition plate_is_unrotated (p : plate) : Prop := pl_RXY p = 0 /\ pl_RZX p = 0 /\ pl_RZY p = 0.
Definition kept_sens (e : sens) : Prop := forall f, kept (sget f e).
Definition sens_ints (e : sens) : Prop := is_int (pl_ID (se_plate e)) /\ is_int (se_NX e) /\ is_int (se_NY e).
(** all whole numbers are ints, and every ladder has its sensitive part, as addLayer sees to *)
Definition si_ok (s : siplanes) : Prop :=
  List.length (si_l s) = List.length (si_s s) /\ is_int (si_id s) /\ is_int (si_num s) /\
  (forall l, In l (si_l s) -> is_int (pl_ID l)) /\ (forall e, In e (si_s s) -> sens_ints e) /\
  is_int (pl_ID (si_dl s)) /\ sens_ints (si_ds s).
(** the device under test, if the telescope has one (type 1) *)
Definition reloaded_dut (s : siplanes) : plate * sens :=
  if (si_type s =? 1)%Z then (reread_plate (unrotated (si_dl s)), reread_sens (si_ds s) 0 0) else (plate0, sens0).
(** what comes back *)
Definition si_reloaded (s : siplanes) : siplanes :=
  mkSi (map reread_plate (si_l s)) (map (fun e => reread_sens e (reread (se_Res e)) (reread (se_Res e))) (si_s s))
    (fst (reloaded_dut s)) (snd (reloaded_dut s)) (si_id s) (si_type s) (si_num s).

(** ** TrackerPlanes: numbers, ints and texts that can be written *)
Definition mat_ok (m : material) : Prop := is_int (pl_ID (ma_plate m)) /\ clean_text (ma_info m).
Definition sensor_ok (e : sensor) : Prop :=
  is_int (pl_ID (sr_plate e)) /\ clean_text (sr_info e) /\ is_int (sr_NX e) /\ is_int (sr_NY e).
Definition tl_ok (l : tplayer) : Prop :=
  is_int (tl_ID l) /\ clean_text (tl_info l) /\ (forall m, In m (tl_mat l) -> mat_ok m) /\ (forall e, In e (tl_sen l) -> sensor_ok e).
Definition tp_ok (t : tplanes) : Prop := is_int (tp_id t) /\ is_int (tp_num t) /\ forall l, In l (tp_layers t) -> tl_ok l.
Definition reread_material (m : material) : material := mkMa (reread_plate (ma_plate m)) (ma_info m).
Definition reread_sensor (e : sensor) : sensor :=
  mkSr (reread_plate (sr_plate e)) (sr_info e) (sr_NX e) (sr_NY e) (reread (sr_PX e)) (reread (sr_PY e)) (reread (sr_ResX e)) (reread (sr_ResY e)).
Definition reread_tplayer (l : tplayer) : tplayer :=
  mkTL (tl_ID l) (tl_info l) (map reread_material (tl_mat l)) (map reread_sensor (tl_sen l)).

(** the description of planes the handler reads: like what toXML writes, but with the layers inside an
    element <layers> and with their ID and info *)
Definition tp_layer_described (l : tplayer) : xnode :=
  XElem "layer" (HxModel.attrs_of [("ID", print_int (tl_ID l)); ("info", tl_info l)]%string)
    (map ladder_elem (tl_mat l) ++ map sensor_elem (tl_sen l)).
Definition tp_described (t : tplanes) : xnode :=
  XElem "detector" []
    [XElem "LayoutID" (HxModel.attrs_of [("ID", print_int (tp_id t))]%string) [];
     XElem "LayoutNumberOfLayers" (HxModel.attrs_of [("number", print_int (tp_num t))]%string) [];
     XElem "layers" [] (map tp_layer_described (tp_layers t))].

(** ** Materials *)
(** a text in which no number begins, not even after blanks *)
Definition no_number (s : string) : Prop :=
  exists c t, skip_ws s = String c t /\ isdigit c = false /\ c <> "-"%char /\ c <> "+"%char /\ c <> "."%char.
Definition material_elem (name a z d r i : string) : xnode :=
  XElem "material" [("name", name); ("A", a); ("Z", z); ("density", d); ("radLength", r); ("intLength", i)]%string [].

Fixpoint all_digits (s : string) : bool := match s with String c t => isdigit c && all_digits t | EmptyString => true end.
