(** C75-C79: printing. *)
From Coq Require Import ZArith List String Ascii Bool Reals Lia Lra.
From Verif Require Import Base RBase XmlModel NumModel VecModel ParamsModel CaloModel CaloSpec ZpModel ZpSpec FtdModel FtdSpec TrkModel
  RectModel TpcModuleModel TpcModel CaloXmlModel TrkXmlModel TpcXmlModel GearXmlModel UtilModel UtilSpec UtilProofs UtilProofs2 UtilProofs3 UtilProofs4 UtilProofs5.
Import ListNotations.
Open Scope R_scope.
Open Scope list_scope.

Lemma small_number : forall b x z, (0 <= z)%Z -> (z <= 10 ^ b)%Z -> Rabs x <= IZR z -> at_most b x.
Proof. intros b x z Z L H. unfold at_most. apply Rle_trans with (1 := H). now apply IZR_le. Qed.
Ltac small := apply (small_number _ _ 1000); [lia|vm_compute; discriminate|rewrite Rabs_right by lra; lra].
Ltac int := unfold int_ok; lia.

(** a ladder detector, an FTD, a field, a calorimeter, a parameter section and a material *)
Definition ex_ladder : zargs := mkZA 10 0 (mkZP 15 0 (1/2) 65 11 90) (mkZP (61/4) 0 (1/20) 64 10 90).
Example ex_ladder_small : ladder_small ex_ladder.
Proof. unfold ladder_small, part_small, ex_ladder. cbn [za_n za_lad za_sen q_d q_w q_len q_t]. repeat split; try int; small. Qed.
Definition ex_zp : zp_obj := (zp_made 1 10 60 70 1 90 [ex_ladder; ex_ladder], params_empty).
Example ex_zp_printable : zp_printable ex_zp.
Proof. exists 1%Z, 10, 60, 70, 1, 90, [ex_ladder; ex_ladder]. split; [reflexivity|]. apply Forall_forall. intros x [<-|[<-|[]]]; apply ex_ladder_small. Qed.
Definition ex_disk : ftd_args := mkFA 16 4 true 1 (PI / 16) 0 0 200 2 1 40 1 20 80 110 95 40 (1/5) 20 80 110 95.
Example ex_disk_small : disk_small ex_disk.
Proof. unfold disk_small, ex_disk. cbn [a_nPetals a_supMin a_supMax a_supW a_supT a_senMin a_senMax a_senW a_senT]. repeat split; try int; small. Qed.
Definition ex_ftd (n : nat) : ftd_obj := (ftd_made (repeat ex_disk n), params_empty).
Example ex_ftd_small : forall n, ftd_small (ex_ftd n) (repeat ex_disk n).
Proof. intros n. split; [reflexivity|]. apply Forall_forall. intros x X. apply repeat_spec in X. subst. apply ex_disk_small. Qed.
Definition ex_field : field_obj := (mkVec 0 0 4, params_empty).
Definition ex_calls : list calo_call := [CPos 1000 5 10 10 2; CAdd 5 20 20 2; CAdd 5 10 10 2; CAdd 7 10 10 3].
Definition ex_calo : calo_obj := (calo_run (new_barrel 1000 2000 8 0) ex_calls, params_empty).
Example ex_calo_printable : calo_printable ex_calo.
Proof. exists (new_barrel 1000 2000 8 0), ex_calls. split; [reflexivity|]. left. now exists 1000, 2000, 8%Z, 0. Qed.
Definition ex_mat : smat := mkSM "silicon" 28 14 2330 94 450.
Definition ex_content (n : nat) : content :=
  mkG "LDC" (Some ex_field) None (fun s => match s with EcalBarrel => Some ex_calo | _ => None end)
    (fun s => match s with VXD | SIT => Some ex_zp | SET => None end) (Some (ex_ftd n)) None None
    [("coil"%string, setIntVal params_empty "n" 3)] [("silicon"%string, ex_mat)].
Example ex_others : forall n, others_printable (ex_content n).
Proof.
  intros n. unfold others_printable, ex_content. cbn [g_zp g_calo g_si g_tp]. repeat split; try discriminate.
  - intros [] o E; try discriminate; injection E as <-; apply ex_zp_printable.
  - intros [] o E; try discriminate; injection E as <-; apply ex_calo_printable.
Qed.
Example ex_content_printable : printable (ex_content 7).
Proof.
  split; [apply ex_others|]. intros o E. injection E as <-. exists (repeat ex_disk 7). split; [apply ex_ftd_small|]. rewrite repeat_length. lia.
Qed.

(** ** C75 *)
(** Printing a whole geometry of which the numbers are not absurdly long and the FTD has at most seven layers
    ends normally, and everything in it is in the output: the name, the field, every detector under its heading,
    every section of parameters and every material. *)
Theorem C75_everything_printed : forall ord g s, printable g ->
  exists l f, print_mgr ord g s = SOk (mkSt (st_out s ++ l) f) tt /\ everything_in ord g (st_fm s) l.
Proof. intros ord g s P. destruct (everything_printed ord g s P) as [l [A B]]. now exists l, (after_materials (g_mat g) (st_fm s)). Qed.
Print Assumptions C75_everything_printed.

(** SIT and SET are printed twice. *)
Example sit_there : printable (ex_content 7) /\ SIT <> VXD /\ g_zp (ex_content 7) SIT = Some ex_zp.
Proof. split; [apply ex_content_printable|]. split; [discriminate|reflexivity]. Qed.
Theorem C75_sit_set_twice : forall ord g s slot o, printable g -> slot <> VXD -> g_zp g slot = Some o ->
  exists l s' b, print_mgr ord g s = SOk s' tt /\ st_out s' = st_out s ++ l /\ alone (print_zp o) (st_fm s) b /\ occurs_twice b l.
Proof. exact sit_set_twice. Qed.
Print Assumptions C75_sit_set_twice.

(** With a compiler that works from left to right, the heading of a detector that is not there is printed too. *)
Example no_set : printable (ex_content 7) /\ g_zp (ex_content 7) SET = None /\ g_calo (ex_content 7) BeamCal = None.
Proof. split; [apply ex_content_printable|]. split; reflexivity. Qed.
Theorem C75_heading_without_detector : forall g s, printable g ->
  (forall slot, g_zp g slot = None ->
   exists l s' h, print_mgr (fun _ => false) g s = SOk s' tt /\ st_out s' = st_out s ++ l /\ heading_for (zp_called slot) h /\ occurs [Text h; Text newline] l) /\
  (forall slot, g_calo g slot = None ->
   exists l s' h, print_mgr (fun _ => false) g s = SOk s' tt /\ st_out s' = st_out s ++ l /\ heading_for (calo_called slot) h /\ occurs [Text h; Text newline] l).
Proof. intros g s P. split; intros slot E; [now apply heading_alone|now apply calo_heading_alone]. Qed.
Print Assumptions C75_heading_without_detector.

(** An FTD with eight or more layers: printing ends with an exception that is not caught, and what was printed
    does not depend on anything but the name, the field, the VXD and the FTD. *)
Example eight_layers : others_printable (ex_content 8) /\ g_ftd (ex_content 8) = Some (ex_ftd 8) /\
  ftd_small (ex_ftd 8) (repeat ex_disk 8) /\ (8 <= List.length (repeat ex_disk 8))%nat.
Proof. split; [apply ex_others|]. split; [reflexivity|]. split; [apply ex_ftd_small|]. rewrite repeat_length. lia. Qed.
Theorem C75_ftd_stops : forall ord g s o h, others_printable g -> g_ftd g = Some o -> ftd_small o h -> (8 <= List.length h)%nat ->
  (exists s' e, print_mgr ord g s = SThrow s' e /\ forall n, e <> EUnknownParameter n) /\
  forall g', g_name g' = g_name g -> g_field g' = g_field g -> g_zp g' VXD = g_zp g VXD -> g_ftd g' = g_ftd g -> print_mgr ord g' s = print_mgr ord g s.
Proof. exact ftd_stops. Qed.
Print Assumptions C75_ftd_stops.

(** ** C76 *)
(** After a geometry with materials the stream is left in fixed notation, without the sign of positive numbers and in
    decimal; without materials it is as it was. *)
Theorem C76_format_left : forall ord g s, printable g ->
  exists s', print_mgr ord g s = SOk s' tt /\
    (g_mat g = [] -> st_fm s' = st_fm s) /\ (g_mat g <> [] -> st_fm s' = mkFm Fixed (fm_prec (st_fm s)) false 10).
Proof.
  intros ord g s P. destruct (everything_printed ord g s P) as [l [A _]]. eexists. split; [exact A|]. cbn [st_fm].
  split; [now intros ->|]. intros N. unfold after_materials. destruct (g_mat g); [congruence|reflexivity].
Qed.
Print Assumptions C76_format_left.

(** So printing the same geometry twice prints different things, and three times the second again. *)
Example spoiled_case : printable (ex_content 7) /\ g_mat (ex_content 7) <> [] /\ g_field (ex_content 7) <> None /\
  st_fm (mkSt [] default_format) <> spoiled default_format.
Proof. split; [apply ex_content_printable|]. repeat split; discriminate. Qed.
Theorem C76_second_print : forall ord g s, printable g -> g_mat g <> [] -> g_field g <> None -> st_fm s <> spoiled (st_fm s) ->
  exists l1 l2, l1 <> l2 /\
    let s1 := mkSt (st_out s ++ l1) (spoiled (st_fm s)) in
    let s2 := mkSt (st_out s1 ++ l2) (spoiled (st_fm s)) in
    let s3 := mkSt (st_out s2 ++ l2) (spoiled (st_fm s)) in
    print_mgr ord g s = SOk s1 tt /\ print_mgr ord g s1 = SOk s2 tt /\ print_mgr ord g s2 = SOk s3 tt.
Proof. exact print_twice. Qed.
Print Assumptions C76_second_print.
(** Without materials, or to a stream that is already like this, it is the same every time. *)
Theorem C76_same_print : forall ord g s, printable g -> g_mat g = [] \/ st_fm s = spoiled (st_fm s) ->
  exists l, let s1 := mkSt (st_out s ++ l) (st_fm s) in
    print_mgr ord g s = SOk s1 tt /\ print_mgr ord g s1 = SOk (mkSt (st_out s1 ++ l) (st_fm s)) tt.
Proof. exact print_twice_same. Qed.
Print Assumptions C76_same_print.

(** ** C77 *)
(** The table of a ladder detector has one line per layer, and the numbers in it, read back, are those of the layer
    as exactly as two decimals can say. *)
Theorem C77_ladders : forall type rIn rOut half gap rad h ps f, Forall ladder_small h ->
  let p := zp_made type rIn rOut half gap rad h in
  exists l, alone (print_zp (p, ps)) f l /\ table_shows (map ladder_entries h) l /\
    occurs [Text " Shell innerR : "; Double f (z_rIn p); Text " outerR : "; Double f (z_rOut p); Text newline;
            Text "       length : "; Double f (z_half p); Text " gap "; Double f (z_gap p)] l /\
    occurs [Text " Layers : "; Int f (Z.of_nat (List.length h))] l.
Proof.
  intros type rIn rOut half gap rad h ps f S p. destruct (params_quiet ps) as [lp W].
  destruct (zp_written type rIn rOut half gap rad h ps lp S W) as [l [Wl O]]. fold p in Wl, O. destruct (O f) as [_ [A [B C]]]. exists (l f).
  split; [now apply writes_alone|]. split; [apply (rows_table _ h zp_row); [intros; apply zp_row_shows|exact C]|]. split; [exact A|].
  replace (Z.of_nat (List.length h)) with (zp_getNLayers p); [exact B|]. unfold zp_getNLayers, p. rewrite (proj1 (zp_made_lists h type rIn rOut half gap rad)), map_length. reflexivity.
Qed.
Print Assumptions C77_ladders.

(** The same for an FTD of at most seven layers. *)
Theorem C77_disks : forall h ps f, Forall disk_small h -> (List.length h <= 7)%nat ->
  exists l, alone (print_ftd (ftd_made h, ps)) f l /\ table_shows (map disk_entries h) l /\
    occurs [Text " Layers : "; Int f (Z.of_nat (List.length h))] l.
Proof.
  intros h ps f S N. destruct (params_quiet ps) as [lp W]. destruct (ftd_written h ps lp S N W) as [l [Wl O]]. destruct (O f) as [_ [B C]]. exists (l f).
  split; [now apply writes_alone|]. split; [apply (rows_table _ h ftd_row); [intros; apply ftd_row_shows|exact C]|].
  rewrite FtdProofs.made_n in B. exact B.
Qed.
Print Assumptions C77_disks.

(** SiPlanes: one line per plane with its ladder and its sensitive part; the DUT only for telescopes with one. *)
Definition ex_plate (i : Z) : plate := mkPl i 1 2 3 0 0 0 10 20 (1/10) 90.
Definition ex_sens (i : Z) : sens := mkSe (ex_plate i) 100 200 (1/10) (1/10) (1/100) 0 0 1 0 0 1.
Example ex_plate_small : forall i, (0 <= i <= 100)%Z -> plate_small (ex_plate i).
Proof. intros i I. split; [cbn [pl_ID ex_plate]; int|]. intros []; cbn [pget pl_X pl_Y pl_Z pl_RXY pl_RZX pl_RZY pl_SX pl_SY pl_T pl_Rad ex_plate]; small. Qed.
Example ex_si_printable : si_printable (mkSi [ex_plate 1; ex_plate 2] [ex_sens 1; ex_sens 2] (ex_plate 3) (ex_sens 3) 7 1 2, params_empty).
Proof.
  assert (E : forall i, (0 <= i <= 100)%Z -> sens_small (ex_sens i)).
  { intros i I. unfold sens_small. cbn [se_plate se_NX se_NY ex_sens]. split; [now apply ex_plate_small|]. split; [|split; int].
    intros [g| | | | | | | | |]; cbn [sget se_plate se_PX se_PY se_Res se_ResX se_ResY se_R1 se_R2 se_R3 se_R4 ex_sens]; try small. apply (proj2 (ex_plate_small i I)). }
  unfold si_printable. cbn [fst si_l si_s si_dl si_ds]. split; [reflexivity|]. split; [|split; [|split; [apply ex_plate_small; lia|apply E; lia]]]; apply Forall_forall; intros x [<-|[<-|[]]]; first [apply ex_plate_small; lia | apply E; lia].
Qed.
Theorem C77_planes : forall s ps f, si_printable (s, ps) ->
  exists l, alone (print_si (s, ps)) f l /\ table_shows (map si_entries (combine (si_l s) (si_s s))) l /\
    (si_type s = 1%Z -> table_shows [dut_entries (si_dl s) (si_ds s)] l) /\
    occurs [Text " Setup ID : "; Int f (si_id s)] l /\
    occurs [Text " Number of telescope planes : "; Int f (si_num s); Text newline; Text " Number of layers : "; Int f (si_getNLayers s)] l.
Proof.
  intros s ps f H. destruct (params_quiet ps) as [lp W]. destruct (si_written s ps lp H W) as [l [Wl O]]. destruct (O f) as [_ [A [B [C D]]]]. exists (l f).
  split; [now apply writes_alone|]. split; [apply (rows_table _ _ si_row); [intros; apply si_row_shows|exact C]|]. split; [|auto].
  intros T. exists [line_text (dut_row (si_dl s) (si_ds s))]. split; [exact (D T)|]. repeat constructor. apply dut_row_shows.
Qed.
Print Assumptions C77_planes.

(** TrackerPlanes: a line per layer, then its material parts, then its sensitive parts. *)
Definition ex_tplayer : tplayer := mkTL 1 "inner" [mkMa (ex_plate 1) "kapton"] [mkSr (ex_plate 2) "pixel" 100 200 (1/10) (1/10) (1/100) (1/100)].
Example ex_tp_printable : tp_printable (mkTP [ex_tplayer; ex_tplayer] 0 "" 7 1 2, params_empty) /\ Forall infos_are_words [ex_tplayer; ex_tplayer].
Proof.
  assert (S : layer_small ex_tplayer).
  { unfold layer_small, ex_tplayer, short. cbn [tl_ID tl_info tl_mat tl_sen String.length]. split; [int|]. split; [lia|].
    split; apply Forall_forall; intros x [<-|[]]; [split; [apply ex_plate_small; lia|]|split; [apply ex_plate_small; lia|repeat split]];
    cbn [ma_plate ma_info sr_plate sr_info sr_NX sr_NY sr_PX sr_PY sr_ResX sr_ResY]; unfold short; cbn [String.length];
    try int; try lia; try small. }
  assert (A : forall s, s <> ""%string -> forallb (fun c => negb (is_gap c) && negb (Ascii.eqb c "000"%char)) (list_ascii_of_string s) = true -> one_word s).
  { intros s N H. split; [exact N|]. intros i c E. rewrite forallb_forall in H.
    assert (I : In c (list_ascii_of_string s)). { clear H N. revert i E. induction s as [|d s IH]; intros [|i] E; try discriminate; cbn in *; [left; congruence|right; eapply IH; eassumption]. }
    specialize (H c I). apply andb_prop in H. destruct H as [H1 H2]. split; [now apply negb_true_iff|]. intros ->. discriminate H2. }
  assert (W : infos_are_words ex_tplayer).
  { unfold infos_are_words, ex_tplayer. cbn [tl_info tl_mat tl_sen]. split; [apply A; [discriminate|reflexivity]|].
    split; apply Forall_forall; intros x [<-|[]]; (apply A; [discriminate|reflexivity]). }
  split; apply Forall_forall; intros x [<-|[<-|[]]]; assumption.
Qed.
Theorem C77_tracker_planes : forall t ps f, tp_printable (t, ps) -> Forall infos_are_words (tp_layers t) ->
  exists l, alone (print_tp (t, ps)) f l /\ table_shows (flat_map tp_rows (tp_layers t)) l /\
    occurs [Text " Setup ID : "; Int f (tp_id t); Text newline; Text " Number of telescope planes : "; Int f (tp_num t)] l /\
    occurs [Text " Number of layers : "; Int f (tp_getNLayers t)] l.
Proof.
  intros t ps f H I. destruct (params_quiet ps) as [lp W]. destruct (tp_written t ps lp H W) as [l [Wl O]]. destruct (O f) as [_ [A [B C]]]. exists (l f).
  split; [now apply writes_alone|]. split; [|auto]. exists (flat_map layer_lines (tp_layers t)). split; [exact C|now apply layer_lines_show].
Qed.
Print Assumptions C77_tracker_planes.

(** A layer whose eight lengths all have 122 digits or more before the point overflows the buffer of 1024 characters ... *)
Example ex_huge : let q := mkZP (IZR (10 ^ 121)) 0 (IZR (10 ^ 121)) (IZR (10 ^ 121)) (IZR (10 ^ 121)) 0 in part_huge q.
Proof. cbv zeta. unfold part_huge. cbn [q_d q_w q_len q_t]. repeat split; apply Rle_refl. Qed.
Theorem C77_ladder_overflow : forall type rIn rOut half gap rad h a ps s, In a h -> part_huge (za_lad a) -> part_huge (za_sen a) ->
  print_zp (zp_made type rIn rOut half gap rad h, ps) s = SUB.
Proof. exact zp_too_long. Qed.
Print Assumptions C77_ladder_overflow.

(** ... and so does a layer of TrackerPlanes with an info text of 819 characters or more (up to its first zero byte). *)
Fixpoint stretch (n : nat) : string := match n with O => ""%string | S k => String "x"%char (stretch k) end.
Example ex_long : (819 <= String.length (c_str (stretch 900)))%nat.
Proof. vm_compute. lia. Qed.
Theorem C77_info_overflow : forall t ps l s, In l (tp_layers t) -> (819 <= String.length (c_str (tl_info l)))%nat -> print_tp (t, ps) s = SUB.
Proof. exact tp_too_long. Qed.
Print Assumptions C77_info_overflow.

(** ** C78 *)
(** The block of a calorimeter has its type, symmetry, angle, extent and number of layers.  Lines about layers are in
    increasing order and say what the layer has; the last layer has one; and thickness and absorber of every layer
    are those of the last line up to it. *)
Theorem C78_calorimeter : forall c ps f, calo_printable (c, ps) ->
  let v := getLayerLayout c in
  exists l lines, alone (print_calo (c, ps)) f l /\
    occurs [Text (match getLayoutType c with BARREL => "  calorimeter type:  barrel  " | ENDCAP => "  calorimeter type:  endcap  " end); Text newline;
            Text "   symmetry order:  "; Int f (getSymmetryOrder c); Text newline; Text "   phi0:            "; Double f (getPhi0 c)] l /\
    (forall c' rMin rMax zMin zMax, getExtent c = SOk c' [rMin; rMax; zMin; zMax] ->
     occurs [Text "         rMin:      "; Double f rMin; Text newline; Text "         rMax:      "; Double f rMax; Text newline;
             Text "         zMin:      "; Double f zMin; Text newline; Text "         zMax:      "; Double f zMax; Text newline] l) /\
    occurs ([Text "   layers    :    #total "; Int f (getNLayers v); Text newline] ++ flat_map (line_tokens f) lines) l /\
    increasing (map ll_id lines) /\ Forall (line_of v) lines /\
    (v <> [] -> exists x, In x lines /\ ll_id x = (getNLayers v - 1)%Z) /\
    (forall i t a, getThickness v i = Ok t -> getAbsorberThickness v i = Ok a -> read_off lines i (0, 0) = (t, a)).
Proof.
  intros c ps f H v. destruct (params_quiet ps) as [lp W]. destruct (calo_written c ps lp H W) as [l [Wl O]]. destruct (O f) as [_ [A [B C]]].
  exists (l f), (lines_of v). split; [now apply writes_alone|]. split; [exact A|]. split; [exact B|]. split; [exact C|]. apply layers_shown.
Qed.
Print Assumptions C78_calorimeter.

(** But cell sizes get lost: a layer as thick as the one before, and not the last, has no line whatever its cells. *)
Theorem C78_cells_lost : forall x y x' y' ps s,
  let calls a b := [CPos 1000 5 10 10 2; CAdd 5 a b 2; CAdd 5 10 10 2] in
  let made a b := calo_run (new_barrel 1000 2000 8 0) (calls a b) in
  getCellSize0 (getLayerLayout (made x y)) 1 = Ok x /\ getCellSize1 (getLayerLayout (made x y)) 1 = Ok y /\
  print_calo (made x y, ps) s = print_calo (made x' y', ps) s.
Proof.
  intros x y x' y' ps s calls made. split; [reflexivity|]. split; [reflexivity|].
  assert (E : forall a b, calo_printable (made a b, ps)).
  { intros a b. exists (new_barrel 1000 2000 8 0), (calls a b). split; [reflexivity|]. left. now exists 1000, 2000, 8%Z, 0. }
  destruct (params_quiet ps) as [lp W]. unfold print_calo. apply then_same. intros s1. do 3 (apply then_same; intros). do 3 (apply then_same; intros). do 3 (apply then_same; intros).
  destruct (made_extent _ (E x y)) as [c1 [a1 [a2 [a3 [a4 X1]]]]]. destruct (made_extent _ (E x' y')) as [c2 [b1 [b2 [b3 [b4 X2]]]]]. cbn [fst] in X1, X2.
  assert (Q : getExtent (made x y) = SOk c1 [a1; a2; a3; a4] /\ [a1; a2; a3; a4] = [b1; b2; b3; b4]).
  { split; [exact X1|]. destruct (CaloProofs.calo_barrel 1000 2000 8 0 (calls x y)) as [_ [_ [_ [d1 Y1]]]]. destruct (CaloProofs.calo_barrel 1000 2000 8 0 (calls x' y')) as [_ [_ [_ [d2 Y2]]]].
    cbv zeta in Y1, Y2. fold (made x y) in Y1. fold (made x' y') in Y2. rewrite X1 in Y1. rewrite X2 in Y2. injection Y1 as _ -> -> -> ->. injection Y2 as _ -> -> -> ->. reflexivity. }
  destruct Q as [_ Q]. injection Q as -> -> -> ->. rewrite X1, X2. do 20 (apply then_same; intros).
  assert (P : forall a b, writes (print_layers (getLayerLayout (made a b)) (Z.to_nat (getNLayers (getLayerLayout (made a b)))) 0 0 0)
                (fun f => flat_map (line_tokens f) (lines_of (getLayerLayout (made a b))))).
  { intros a b. unfold getNLayers. rewrite Nat2Z.id. apply (layers_written (getLayerLayout (made a b)) (getLayerLayout (made a b)) 0 0 0 eq_refl). }
  rewrite !P. f_equal. f_equal. f_equal. f_equal. unfold lines_of, made, calls, calo_run, calo_do, getLayerLayout, positionLayer, addLayer, set_layout, new_barrel.
  cbn [fold_left c_layout app back_ nth_error List.length Nat.sub L_Distance L_Thickness lines_from L_AbsorberThickness L_CellSize0 L_CellSize1].
  replace (Reqb 5 5) with true by (symmetry; now apply Reqb_true). replace (Reqb 2 2) with true by (symmetry; now apply Reqb_true).
  reflexivity.
Qed.
Print Assumptions C78_cells_lost.

(** ** C79 *)
(** Every parameter of a set is printed with its kind, its name and its value. *)
Theorem C79_parameters : forall p f, exists l, alone (print_params p) f l /\
  (forall k v, getIntVal p k = Ok v -> occurs [Text newline; Text "    [int]       "; Text k; sep; Int f v; Text newline] l) /\
  (forall k v, getDoubleVal p k = Ok v -> occurs [Text newline; Text "    [double]    "; Text k; sep; Double f v; Text newline] l) /\
  (forall k v, getStringVal p k = Ok v -> occurs [Text newline; Text "    [string]    "; Text k; sep; Text v; Text newline] l) /\
  (forall k v, getIntVals p k = Ok v ->
     occurs ([Text newline; Text "    [IntVec]    "; Text k; sep] ++ flat_map (fun x => [Int f x; Text " , "]) v ++ [Text newline]) l) /\
  (forall k v, getDoubleVals p k = Ok v ->
     occurs ([Text newline; Text "    [DoubleVec] "; Text k; sep] ++ flat_map (fun x => [Double f x; Text " , "]) v ++ [Text newline]) l) /\
  (forall k v, getStringVals p k = Ok v ->
     occurs ([Text newline; Text "    [StringVec] "; Text k; sep] ++ flat_map (fun x => [Text x; Text " , "]) v ++ [Text newline]) l).
Proof.
  intros p f. destruct (params_written p) as [l [W [A [B [C [D [E F]]]]]]]. exists (l f). split; [now apply writes_alone|]. repeat split; auto.
Qed.
Print Assumptions C79_parameters.

(** A field is printed with its vector and its parameters ... *)
Theorem C79_field : forall b ps f, exists l, alone (print_field (b, ps)) f l /\ shown (print_params ps) f l /\
  occurs [Text "       field vector at origin :   Bx = "; Double f (vx b); Text " , By = "; Double f (vy b); Text " , Bz = "; Double f (vz b)] l.
Proof.
  intros b ps f. destruct (params_quiet ps) as [lp W]. destruct (field_written b ps lp W) as [l [Wl O]]. destruct (O f) as [A B]. exists (l f).
  split; [now apply writes_alone|]. split; [|exact B]. exists (lp f). split; [now apply writes_alone|exact A].
Qed.
Print Assumptions C79_field.

(** ... a TPC with its own values, its parameters and every one of its modules ... *)
Theorem C79_tpc : forall ord o f, exists l, alone (print_tpc ord o) f l /\ shown (print_params (to_par o)) f l /\
  occurs [Text "  maxDriftLength :      "; Double f (getMaxDriftLength (w_tpc (to_world o)))] l /\
  (getCoordinateType (w_tpc (to_world o)) = CARTESIAN -> occurs [Text "  coordinateType :      "; Text "cartesian"] l) /\
  (getCoordinateType (w_tpc (to_world o)) = POLAR -> occurs [Text "  coordinateType :      "; Text "polar"] l) /\
  occurs [Text "  Number of modules :   "; Int f (getNModules (w_tpc (to_world o)))] l /\
  forall a, In a (getModules (w_tpc (to_world o))) -> shown (print_module ord (w_heap (to_world o) a) (to_mpar o a)) f l.
Proof.
  intros ord o f. destruct (params_quiet (to_par o)) as [lp W]. destruct (tpc_written ord o lp W) as [l [Wl O]]. destruct (O f) as [A [B [X [C D]]]]. exists (l f).
  split; [now apply writes_alone|]. split; [exists (lp f); split; [now apply writes_alone|exact A]|]. split; [exact B|].
  split; [intros T; rewrite T in X; exact X|]. split; [intros T; rewrite T in X; exact X|]. split; [exact C|].
  intros a I. destruct (D a I) as [la [Wa Oa]]. exists (la f). split; [now apply writes_alone|exact Oa].
Qed.
Print Assumptions C79_tpc.

(** ... and a module with its values; a module without a z position is said to have none. *)
Theorem C79_module : forall ord m ps f, exists l, alone (print_module ord m ps) f l /\ shown (print_params ps) f l /\
    occurs [Text "  Readout frequency :   "; Double f (TpcModuleModel.getReadoutFrequency m)] l /\
    (lay_type (m_layout m) = CARTESIAN -> occurs [Text "  Type :                 "; Text "cartesian"] l) /\
    (lay_type (m_layout m) = POLAR -> occurs [Text "  Type :                 "; Text "polar"] l) /\
    occurs [Text "  Number of pads :      "; Int f (lay_nPads (m_layout m))] l /\
    occurs [Text "  Number of Rows :      "; Int f (lay_nRows (m_layout m))] l /\
    occurs [Text "  Offset :              "; Double f (fst (getOffset m)); Text "  ;  "; Double f (snd (getOffset m))] l /\
    (forall z, getZPosition m = Some z -> occurs [Text "  zPosition :           "; Double f z] l) /\
    (getZPosition m = None -> occurs [Text " no z Position set "] l) /\
    occurs [Text "  Angle :               "; Double f (getAngle m)] l /\
    occurs [Text "         extent (global):    ["; Double f (e0 (module_getPlaneExtent m)); Text ","; Double f (e1 (module_getPlaneExtent m)); Text ",";
            Double f (e2 (module_getPlaneExtent m)); Text ","; Double f (e3 (module_getPlaneExtent m)); Text "]"] l.
Proof.
  intros ord m ps f. destruct (params_quiet ps) as [lp W]. destruct (module_written ord m ps lp W) as [l [Wl O]].
  destruct (O f) as [A [B [X [C [D [E [F [G [H I]]]]]]]]]. exists (l f).
  split; [now apply writes_alone|]. split; [exists (lp f); split; [now apply writes_alone|exact A]|]. repeat split; auto; intros T; rewrite T in X; exact X.
Qed.
Print Assumptions C79_module.
