(** What printing a detector description is expected to show. *)
From Coq Require Import ZArith List String Ascii Bool Reals.
From Verif Require Import Base RBase XmlModel NumModel VecModel ParamsModel CaloModel CaloSpec ZpModel ZpSpec FtdModel FtdSpec TrkModel
  TpcModuleModel TpcModel CaloXmlModel TrkXmlModel TpcXmlModel GearXmlModel UtilModel.
Import ListNotations.
Open Scope R_scope.
Open Scope list_scope.

(** ** What a stream was given *)
(** [l] is somewhere, without a gap, in [out] *)
Definition occurs (l out : list token) : Prop := exists a b, out = a ++ l ++ b.
(** [l] is there twice, one after the other *)
Definition occurs_twice (l out : list token) : Prop := exists a b c, out = a ++ l ++ b ++ l ++ c.
(** what the printer writes to an empty stream with this format *)
Definition alone (p : printer) (f : format) (l : list token) : Prop := p (mkSt [] f) = SOk (mkSt l f) tt.
(** a heading has the name of what it is for in it *)
Definition heading_for (name h : string) : Prop := exists a b, h = (a ++ name ++ b)%string.
Definition calo_called (s : calo_slot) : string :=
  match s with
  | EcalBarrel => "Ecal barrel" | EcalEndcap => "Ecal endcap" | EcalPlug => "Ecal plug"
  | YokeBarrel => "Yoke barrel" | YokeEndcap => "Yoke endcap" | YokePlug => "Yoke plug"
  | HcalBarrel => "Hcal barrel" | HcalEndcap => "Hcal endcap" | HcalRing => "Hcal ring"
  | Lcal => " Lcal " | LHcal => " LHcal " | BeamCal => "BeamCal"
  end.
Definition zp_called (s : zp_slot) : string := match s with VXD => "VXD" | SIT => "SIT" | SET => "SET" end.
Definition newline : string := String "010"%char "".
(** what is between the name of a parameter and its value *)
Definition sep : token := Text (String " " (String "009" (String " " "")))%char.
(** the block under its heading *)
Definition under_heading (name : string) (p : printer) (f : format) (out : list token) : Prop :=
  exists h b, heading_for name h /\ alone p f b /\ occurs (Text h :: Text newline :: b) out.
Definition shown (p : printer) (f : format) (out : list token) : Prop := exists b, alone p f b /\ occurs b out.

(** ** Tables *)
Definition is_gap (c : ascii) : bool := existsb (Ascii.eqb c) [" "; "|"; "`"; "010"]%char.
(** the words between blanks, bars and the end of the line *)
Fixpoint words_from (s cur : string) : list string :=
  match s with
  | EmptyString => match cur with EmptyString => [] | _ => [cur] end
  | String c t =>
      if is_gap c then match cur with EmptyString => words_from t "" | _ => cur :: words_from t "" end
      else words_from t (cur ++ String c "")%string
  end.
Definition words (s : string) : list string := words_from s "".
(** a word, read as a decimal number, is the integer *)
Definition is_int (z : Z) (w : string) : Prop := read_decimal w = (z, 0%Z).
(** a word, read as a decimal number with [p] decimals, is as near to [x] as such a number can be *)
Definition is_near (p : nat) (x : R) (w : string) : Prop :=
  exists m, read_decimal w = (m, (- Z.of_nat p)%Z) /\ Rabs (IZR m - x * 10 ^ p) <= / 2.
Inductive entry := Whole (z : Z) | Number (p : nat) (x : R) | Word (s : string).
Definition entry_is (e : entry) (w : string) : Prop :=
  match e with Whole z => is_int z w | Number p x => is_near p x w | Word s => w = s end.
(** the line has these entries, one after the other *)
Definition line_shows (es : list entry) (line : string) : Prop := Forall2 entry_is es (words line).

(** a text that is one word *)
Definition one_word (s : string) : Prop :=
  s <> ""%string /\ forall i c, String.get i s = Some c -> is_gap c = false /\ c <> "000"%char.
(** the entries of a row, column by column *)
Definition ladder_entries (a : zargs) : list entry :=
  [Whole (za_n a); Number 2 (q_d (za_lad a)); Number 2 (q_w (za_lad a)); Number 2 (q_len (za_lad a)); Number 2 (q_t (za_lad a));
   Number 2 (q_d (za_sen a)); Number 2 (q_w (za_sen a)); Number 2 (q_len (za_sen a)); Number 2 (q_t (za_sen a))].
Definition disk_entries (a : ftd_args) : list entry :=
  [Whole (a_nPetals a); Number 2 (a_supMin a); Number 2 (a_supMax a); Number 2 (a_supW a); Number 2 (a_supT a);
   Number 2 (a_senMin a); Number 2 (a_senMax a); Number 2 (a_senW a); Number 2 (a_senT a)].
Definition si_entries (r : plate * sens) : list entry :=
  let (l, e) := r in let q := se_plate e in
  [Whole (pl_ID l); Number 2 (pl_X l); Number 2 (pl_Y l); Number 2 (pl_Z l); Number 2 (pl_RXY l); Number 2 (pl_RZX l); Number 2 (pl_RZY l);
   Number 2 (pl_SX l); Number 2 (pl_SY l); Number 3 (pl_T l);
   Whole (pl_ID q); Number 2 (pl_X q); Number 2 (pl_Y q); Number 2 (pl_Z q); Number 2 (pl_SX q); Number 2 (pl_SY q); Number 3 (pl_T q);
   Whole (se_NX e); Whole (se_NY e); Number 2 (se_PX e); Number 2 (se_PY e); Number 4 (se_Res e);
   Number 2 (se_R1 e); Number 2 (se_R2 e); Number 2 (se_R3 e); Number 2 (se_R4 e)].
Definition dut_entries (l : plate) (e : sens) : list entry :=
  let q := se_plate e in
  [Whole (pl_ID l); Number 2 (pl_X l); Number 2 (pl_Y l); Number 2 (pl_Z l); Number 2 (pl_SX l); Number 2 (pl_SY l); Number 3 (pl_T l);
   Whole (pl_ID q); Number 2 (pl_X q); Number 2 (pl_Y q); Number 2 (pl_Z q); Number 2 (pl_SX q); Number 2 (pl_SY q); Number 3 (pl_T q);
   Whole (se_NX e); Whole (se_NY e); Number 2 (se_PX e); Number 2 (se_PY e);
   Number 2 (se_R1 e); Number 2 (se_R2 e); Number 2 (se_R3 e); Number 2 (se_R4 e)].
Definition plate_entries (id : Z) (info : string) (p : plate) : list entry :=
  [Whole id; Word info; Number 0 (pl_X p); Number 0 (pl_Y p); Number 0 (pl_Z p); Number 0 (pl_RXY p); Number 0 (pl_RZX p); Number 0 (pl_RZY p);
   Number 2 (pl_SX p); Number 2 (pl_SY p); Number 2 (pl_T p); Number 2 (pl_Rad p)].
Definition material_entries (m : material) : list entry := plate_entries (pl_ID (ma_plate m)) (ma_info m) (ma_plate m).
Definition sensor_entries (e : sensor) : list entry :=
  plate_entries (pl_ID (sr_plate e)) (sr_info e) (sr_plate e) ++
  [Whole (sr_NX e); Whole (sr_NY e); Number 4 (sr_PX e); Number 4 (sr_PY e); Number 4 (sr_ResX e); Number 4 (sr_ResY e)].
Definition layer_entries (l : tplayer) : list entry := [Whole (tl_ID l); Word (tl_info l)].
(** all rows of a layer of TrackerPlanes *)
Definition tp_rows (l : tplayer) : list (list entry) := layer_entries l :: map material_entries (tl_mat l) ++ map sensor_entries (tl_sen l).
Definition infos_are_words (l : tplayer) : Prop :=
  one_word (tl_info l) /\ Forall (fun m => one_word (ma_info m)) (tl_mat l) /\ Forall (fun e => one_word (sr_info e)) (tl_sen l).
(** a table: one line per row *)
Definition table_shows (rows : list (list entry)) (out : list token) : Prop :=
  exists lines, occurs (map Text lines) out /\ Forall2 line_shows rows lines.

(** ** Which objects can be printed *)
Definition at_most (b : Z) (x : R) : Prop := Rabs x <= IZR (10 ^ b).
(** ladder detectors: made by any calls, ints in range, lengths up to 10^100 *)
Definition part_small (q : zpart) : Prop := at_most 100 (q_d q) /\ at_most 100 (q_w q) /\ at_most 100 (q_len q) /\ at_most 100 (q_t q).
Definition part_huge (q : zpart) : Prop :=
  IZR (10 ^ 121) <= q_d q /\ IZR (10 ^ 121) <= q_w q /\ IZR (10 ^ 121) <= q_len q /\ IZR (10 ^ 121) <= q_t q.
Definition ladder_small (a : zargs) : Prop := int_ok (za_n a) /\ part_small (za_lad a) /\ part_small (za_sen a).
Definition zp_printable (o : zp_obj) : Prop :=
  exists type rIn rOut half gap rad h, fst o = zp_made type rIn rOut half gap rad h /\ Forall ladder_small h.
(** the same for the FTD *)
Definition disk_small (a : ftd_args) : Prop :=
  int_ok (a_nPetals a) /\
  at_most 100 (a_supMin a) /\ at_most 100 (a_supMax a) /\ at_most 100 (a_supW a) /\ at_most 100 (a_supT a) /\
  at_most 100 (a_senMin a) /\ at_most 100 (a_senMax a) /\ at_most 100 (a_senW a) /\ at_most 100 (a_senT a).
Definition ftd_small (o : ftd_obj) (h : list ftd_args) : Prop := fst o = ftd_made h /\ Forall disk_small h.
(** planes: as many ladders as sensitive parts, numbers up to 10^30 *)
Definition plate_small (p : plate) : Prop := int_ok (pl_ID p) /\ forall f, at_most 30 (pget f p).
Definition sens_small (e : sens) : Prop := plate_small (se_plate e) /\ (forall f, at_most 30 (sget f e)) /\ int_ok (se_NX e) /\ int_ok (se_NY e).
Definition si_printable (o : si_obj) : Prop :=
  List.length (si_l (fst o)) = List.length (si_s (fst o)) /\ Forall plate_small (si_l (fst o)) /\ Forall sens_small (si_s (fst o)) /\
  plate_small (si_dl (fst o)) /\ sens_small (si_ds (fst o)).
Definition short (s : string) : Prop := (String.length s <= 200)%nat.
Definition material_small (m : material) : Prop := plate_small (ma_plate m) /\ short (ma_info m).
Definition sensor_small (e : sensor) : Prop :=
  plate_small (sr_plate e) /\ short (sr_info e) /\ int_ok (sr_NX e) /\ int_ok (sr_NY e) /\
  at_most 30 (sr_PX e) /\ at_most 30 (sr_PY e) /\ at_most 30 (sr_ResX e) /\ at_most 30 (sr_ResY e).
Definition layer_small (l : tplayer) : Prop :=
  int_ok (tl_ID l) /\ short (tl_info l) /\ Forall material_small (tl_mat l) /\ Forall sensor_small (tl_sen l).
Definition tp_printable (o : tp_obj) : Prop := Forall layer_small (tp_layers (fst o)).
(** calorimeters: made by any calls *)
Definition calo_printable (o : calo_obj) : Prop :=
  exists c h, fst o = calo_run c h /\
    ((exists rMin zMax n phi, c = new_barrel rMin zMax n phi) \/ (exists rMin rMax zMin n phi, c = new_endcap rMin rMax zMin n phi)).
(** everything but the FTD *)
Definition others_printable (g : content) : Prop :=
  (forall s o, g_zp g s = Some o -> zp_printable o) /\ (forall s o, g_calo g s = Some o -> calo_printable o) /\
  (forall o, g_si g = Some o -> si_printable o) /\ (forall o, g_tp g = Some o -> tp_printable o).
Definition printable (g : content) : Prop :=
  others_printable g /\ forall o, g_ftd g = Some o -> exists h, ftd_small o h /\ (List.length h <= 7)%nat.

(** the format a stream is left in by a material *)
Definition spoiled (f : format) : format := mkFm Fixed (fm_prec f) false 10.
(** the numbers of a material: scientific, with a sign and eight decimals *)
Definition material_line_for (m : smat) (l : list token) : Prop :=
  exists base a b c d e, let f := mkFm Scientific 8 true base in
    l = [a; Text (sm_name m); Text ", A= "; Double f (sm_A m); Text ", Z= "; Double f (sm_Z m); b; Double f (sm_density m);
         c; Double f (sm_radLength m); d; Double f (sm_intLength m); e]%string.

(** everything in the manager can be seen in the output *)
Definition everything_in (ord : string -> bool) (g : content) (f : format) (out : list token) : Prop :=
  (g_name g <> ""%string -> occurs [Text (g_name g)] out) /\
  (forall o, g_field g = Some o -> shown (print_field o) f out) /\
  (forall s o, g_zp g s = Some o -> under_heading (zp_called s) (print_zp o) f out) /\
  (forall o, g_ftd g = Some o -> shown (print_ftd o) f out) /\
  (forall o, g_tpc g = Some o -> shown (print_tpc ord o) f out) /\
  (forall s o, g_calo g s = Some o -> under_heading (calo_called s) (print_calo o) f out) /\
  (forall o, g_tp g = Some o -> under_heading "TrackerPlanes" (print_tp o) f out) /\
  (forall o, g_si g = Some o -> under_heading "SiPlanes" (print_si o) f out) /\
  (forall k p, sm_find k (g_generic g) = Some p ->
     exists a b c, alone (print_params p) f b /\ occurs ([a; Text k; c; Text newline] ++ b) out) /\
  (forall k m, sm_find k (g_mat g) = Some m -> exists l, material_line_for m l /\ occurs l out).

(** ** Layers of a calorimeter *)
(** one line about a layer *)
Record layer_line := mkLL { ll_id : Z; ll_thickness : R; ll_absorber : R; ll_distance : R; ll_cell0 : R; ll_cell1 : R }.
Definition line_tokens (f : format) (x : layer_line) : list token :=
  [Text "       id: "; Int f (ll_id x); Text " thickness: "; Double f (ll_thickness x); Text " absorber thickness: "; Double f (ll_absorber x);
   Text " distance: "; Double f (ll_distance x); Text " cellsize-0: "; Double f (ll_cell0 x); Text " cellsize-1: "; Double f (ll_cell1 x);
   Text newline]%string.
(** thickness and absorber as one reads them off the lines: those of the last line whose number is not above [i];
    nothing before the first line *)
Fixpoint read_off (ls : list layer_line) (i : Z) (last : R * R) : R * R :=
  match ls with
  | [] => last
  | x :: r => if (ll_id x <=? i)%Z then read_off r i (ll_thickness x, ll_absorber x) else last
  end.
Definition line_of (v : layout) (x : layer_line) : Prop :=
  getThickness v (ll_id x) = Ok (ll_thickness x) /\ getAbsorberThickness v (ll_id x) = Ok (ll_absorber x) /\
  getDistance v (ll_id x) = Ok (ll_distance x) /\ getCellSize0 v (ll_id x) = Ok (ll_cell0 x) /\ getCellSize1 v (ll_id x) = Ok (ll_cell1 x).
Fixpoint increasing (l : list Z) : Prop :=
  match l with a :: ((b :: _) as t) => (a < b)%Z /\ increasing t | _ => True end.
