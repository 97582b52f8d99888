(** Proofs about the tables of telescopes. *)
From Coq Require Import ZArith List String Ascii Bool Reals Lia Lra.
From Flocq Require Import Core.
From Verif Require Import Base BaseProofs RBase XmlModel XmlSpec XmlProofs NumModel NumSpec NumProofs VecModel ParamsModel CaloModel CaloSpec CaloProofs
  ZpModel ZpSpec FtdModel FtdSpec FtdProofs TrkModel TpcModuleModel TpcModel CaloXmlModel TrkXmlModel TpcXmlModel GearXmlModel UtilModel UtilSpec UtilTextProofs UtilProofs UtilProofs2.
Import ListNotations.
Local Open Scope list_scope.

Lemma rows_table : forall A (h : list A) (row : A -> list conv) (es : A -> list entry) out,
  (forall a, In a h -> line_shows (es a) (line_text (row a))) -> occurs (map (fun a => Text (line_text (row a))) h) out ->
  table_shows (map es h) out.
Proof.
  intros A h row es out H O. exists (map (fun a => line_text (row a)) h). split; [now rewrite map_map|].
  clear O. induction h as [|a h IH]; constructor.
  - apply H. now left.
  - apply IH. intros b B. apply H. now right.
Qed.
Lemma zp_row_shows : forall a, line_shows (ladder_entries a) (line_text (zp_row a)).
Proof. intros a. apply table_row_shows. Qed.
Lemma ftd_row_shows : forall a, line_shows (disk_entries a) (line_text (ftd_row a)).
Proof. intros a. apply table_row_shows. Qed.

(** ** SiPlanes *)
Definition si_row (r : plate * sens) : list conv :=
  let (l, e) := r in let q := se_plate e in
   [L "  |"; D 5 (pl_ID l); L "|"; F 5 2 (pl_X l); L "|"; F 5 2 (pl_Y l); L "|"; F 7 2 (pl_Z l); L "|"; F 5 2 (pl_RXY l); L "|"; F 5 2 (pl_RZX l); L "|"; F 5 2 (pl_RZY l); L "|";
    F 6 2 (pl_SX l); L "|"; F 6 2 (pl_SY l); L "|"; F 6 3 (pl_T l); L "|"; D 5 (pl_ID q); L "|"; F 5 2 (pl_X q); L "|"; F 5 2 (pl_Y q); L "|"; F 7 2 (pl_Z q); L "|";
    F 5 2 (pl_SX q); L "|"; F 5 2 (pl_SY q); L "|"; F 6 3 (pl_T q); L "|"; D 5 (se_NX e); L "|"; D 5 (se_NY e); L "|"; F 6 2 (se_PX e); L "|"; F 6 2 (se_PY e); L "|"; F 6 4 (se_Res e); L "|";
    F 5 2 (se_R1 e); L "|"; F 5 2 (se_R2 e); L "|"; F 5 2 (se_R3 e); L "|"; F 5 2 (se_R4 e); L "|"; L lf]%string.
Definition dut_row (l : plate) (e : sens) : list conv :=
  let q := se_plate e in
   [L "  |"; D 5 (pl_ID l); L "|"; F 5 2 (pl_X l); L "|"; F 5 2 (pl_Y l); L "|"; F 7 2 (pl_Z l); L "|"; F 6 2 (pl_SX l); L "|";
    F 6 2 (pl_SY l); L "|"; F 6 3 (pl_T l); L "|"; D 5 (pl_ID q); L "|"; F 5 2 (pl_X q); L "|"; F 5 2 (pl_Y q); L "|"; F 7 2 (pl_Z q); L "|";
    F 5 2 (pl_SX q); L "|"; F 5 2 (pl_SY q); L "|"; F 6 3 (pl_T q); L "|"; D 5 (se_NX e); L "|"; D 5 (se_NY e); L "|";
    F 6 2 (se_PX e); L "|"; F 6 2 (se_PY e); L "|"; F 5 2 (se_R1 e); L "|"; F 5 2 (se_R2 e); L "|"; F 5 2 (se_R3 e); L "|";
    F 5 2 (se_R4 e); L "|"; L lf]%string.
Lemma si_line_row : forall s i l e st, nth_error (si_l s) i = Some l -> nth_error (si_s s) i = Some e ->
  si_line s (Z.of_nat i) st = sprintf_line (si_row (l, e)) st.
Proof.
  intros s i l e st L E. unfold si_line, si_getID, si_getLayer, si_getSensitive, si_getSensitiveZ.
  assert (A : at_ (si_l s) (Z.of_nat i) = Ok l) by (unfold at_; now rewrite nthZ_of_nat, L).
  assert (B : at_ (si_s s) (Z.of_nat i) = Ok e) by (unfold at_; now rewrite nthZ_of_nat, E).
  rewrite A, B. cbn [rmap]. unfold have. reflexivity.
Qed.
(** the length of a conversion of a number up to 10^30 *)
Lemma F_30 : forall w p x, (w <= 7)%nat -> (p <= 4)%nat -> at_most 30 x -> (String.length (conv_text (F w p x)) <= 33 + p)%nat.
Proof. intros w p x W P H. pose proof (conv_F_le w p x 30 H). lia. Qed.
Lemma D_5 : forall z, int_ok z -> (String.length (conv_text (D 5 z)) <= 11)%nat.
Proof. intros. apply conv_D_le; [assumption|lia]. Qed.
Ltac lens := repeat match goal with
  | |- context [String.length (conv_text (F ?w ?p ?x))] =>
      let X := fresh in assert (X : (String.length (conv_text (F w p x)) <= 33 + p)%nat) by (apply F_30; [lia|lia|eauto]);
      let v := fresh in set (v := String.length (conv_text (F w p x))) in *; clearbody v
  | |- context [String.length (conv_text (D ?w ?z))] =>
      let X := fresh in assert (X : (String.length (conv_text (D w z)) <= 11)%nat) by (apply conv_D_le; [eauto|lia]);
      let v := fresh in set (v := String.length (conv_text (D w z))) in *; clearbody v
  | |- context [String.length (conv_text (S_ ?w ""))] => rewrite (conv_S_empty w)
  | |- context [String.length (conv_text (S_ ?w ?x))] =>
      let X := fresh in assert (X : (String.length (conv_text (S_ w x)) <= 200)%nat) by (apply conv_S_le; [assumption|lia]);
      let v := fresh in set (v := String.length (conv_text (S_ w x))) in *; clearbody v
  end.
Lemma plate_30 : forall p, plate_small p -> at_most 30 (pl_X p) /\ at_most 30 (pl_Y p) /\ at_most 30 (pl_Z p) /\ at_most 30 (pl_RXY p) /\
  at_most 30 (pl_RZX p) /\ at_most 30 (pl_RZY p) /\ at_most 30 (pl_SX p) /\ at_most 30 (pl_SY p) /\ at_most 30 (pl_T p) /\ at_most 30 (pl_Rad p) /\ int_ok (pl_ID p).
Proof.
  intros p [I H]. exact (conj (H FX) (conj (H FY) (conj (H FZ) (conj (H FRXY) (conj (H FRZX) (conj (H FRZY) (conj (H FSX) (conj (H FSY) (conj (H FT) (conj (H FRad) I)))))))))).
Qed.
Lemma sens_30 : forall e, sens_small e -> at_most 30 (se_PX e) /\ at_most 30 (se_PY e) /\ at_most 30 (se_Res e) /\ at_most 30 (se_R1 e) /\
  at_most 30 (se_R2 e) /\ at_most 30 (se_R3 e) /\ at_most 30 (se_R4 e) /\ int_ok (se_NX e) /\ int_ok (se_NY e).
Proof.
  intros e [_ [H [X Y]]]. exact (conj (H SPX) (conj (H SPY) (conj (H SRes) (conj (H SR1) (conj (H SR2) (conj (H SR3) (conj (H SR4) (conj X Y)))))))).
Qed.
Lemma si_row_fits : forall l e, plate_small l -> sens_small e -> (String.length (line_text (si_row (l, e))) < 1024)%nat.
Proof.
  intros l e P E. pose proof (plate_30 _ P). pose proof (plate_30 _ (proj1 E)). pose proof (sens_30 _ E). decompose [and] H. decompose [and] H0. decompose [and] H1.
  clear H H0 H1. rewrite line_len. unfold si_row. cbn [total_len]. rewrite !conv_L. lens. cbn [String.length]. change (String.length lf) with 1%nat. lia.
Qed.
Lemma dut_row_fits : forall l e, plate_small l -> sens_small e -> (String.length (line_text (dut_row l e)) < 1024)%nat.
Proof.
  intros l e P E. pose proof (plate_30 _ P). pose proof (plate_30 _ (proj1 E)). pose proof (sens_30 _ E). decompose [and] H. decompose [and] H0. decompose [and] H1.
  clear H H0 H1. rewrite line_len. unfold dut_row. cbn [total_len]. rewrite !conv_L. lens. cbn [String.length]. change (String.length lf) with 1%nat. lia.
Qed.
Lemma si_row_shows : forall r, line_shows (si_entries r) (line_text (si_row r)).
Proof.
  intros [l e]. unfold line_shows, words. apply (line_words (si_row (l, e))). unfold si_row. cbn [separated].
  repeat (split; try reflexivity; try discriminate).
Qed.
Lemma dut_row_shows : forall l e, line_shows (dut_entries l e) (line_text (dut_row l e)).
Proof.
  intros l e. unfold line_shows, words. apply (line_words (dut_row l e)). unfold dut_row. cbn [separated].
  repeat (split; try reflexivity; try discriminate).
Qed.
Lemma nth_error_combine : forall A B (l : list A) (m : list B) i a b, nth_error (combine l m) i = Some (a, b) ->
  nth_error l i = Some a /\ nth_error m i = Some b.
Proof.
  induction l as [|x l IH]; intros m i a b E; [destruct i; discriminate|]. destruct m as [|y m]; [destruct i; discriminate|].
  destruct i as [|i]; cbn in *; [injection E as -> ->; auto|]. now apply IH.
Qed.
Lemma si_written : forall s ps lp, si_printable (s, ps) -> writes (print_params ps) lp ->
  exists l, writes (print_si (s, ps)) l /\ forall f,
    occurs (lp f) (l f) /\
    occurs [Text " Setup ID : "; Int f (si_id s)] (l f) /\
    occurs [Text " Number of telescope planes : "; Int f (si_num s); Text newline; Text " Number of layers : "; Int f (si_getNLayers s)] (l f) /\
    occurs (map (fun r => Text (line_text (si_row r))) (combine (si_l s) (si_s s))) (l f) /\
    (si_type s = 1%Z -> occurs [Text (line_text (dut_row (si_dl s) (si_ds s)))] (l f)).
Proof.
  intros s ps lp [N [P [E [DP DE]]]] W. cbn [fst] in *. rewrite Forall_forall in P, E.
  assert (R : writes (all_of (si_line s) (UtilModel.indices (si_getNLayers s)))
                (fun _ => map (fun r => Text (line_text (si_row r))) (combine (si_l s) (si_s s)))).
  { unfold si_getNLayers. replace (List.length (si_l s)) with (List.length (combine (si_l s) (si_s s))) by (rewrite combine_length; lia).
    apply rows_written. intros i [l e] X st. apply nth_error_combine in X. destruct X as [Xl Xe].
    rewrite (si_line_row s i l e st Xl Xe), writes_sprintf; [reflexivity|].
    apply si_row_fits; [apply P|apply E]; eapply nth_error_In; eassumption. }
  assert (T : writes (dut_line s) (fun _ => [Text (line_text (dut_row (si_dl s) (si_ds s)))])).
  { apply (writes_sprintf (dut_row (si_dl s) (si_ds s))). now apply dut_row_fits. }
  destruct (si_type s =? 1)%Z eqn:Y.
  - eexists. split; [unfold print_si; rewrite Y; wr|]. intros f. repeat split; try intros _; occ.
  - eexists. split; [unfold print_si; rewrite Y; wr|]. intros f. repeat split; try occ. intros X. rewrite X in Y. discriminate.
Qed.
Lemma si_quiet : forall o, si_printable o -> quiet (print_si o).
Proof.
  intros [s ps] H. destruct (params_quiet ps) as [lp W]. destruct (si_written s ps lp H W) as [l [Wl _]]. now exists l.
Qed.

(** ** TrackerPlanes *)
Definition layer_conv (l : tplayer) : list conv :=
  [L "|"; D 3 (tl_ID l); L " "; S_ 14 (tl_info l); L "|"] ++ no_plate ++ [L "|"] ++ no_plate ++ no_pixels.
Definition material_conv (m : material) : list conv :=
  [L "|"; S_ 3 ""; L " "; S_ 14 ""; L "|"; D 3 (pl_ID (ma_plate m)); L " "; S_ 14 (ma_info m)] ++ plate_columns (ma_plate m) ++
  [L "|"] ++ no_plate ++ no_pixels.
Definition sensor_conv (e : sensor) : list conv :=
  [L "|"; S_ 3 ""; L " "; S_ 14 ""; L "|"] ++ no_plate ++ [L "|"; D 3 (pl_ID (sr_plate e)); L " "; S_ 14 (sr_info e)] ++ plate_columns (sr_plate e) ++
  [L "`"; D 5 (sr_NX e); L " "; D 5 (sr_NY e); L " "; F 5 4 (sr_PX e); L " "; F 5 4 (sr_PY e); L " ";
   F 5 4 (sr_ResX e); L " "; F 5 4 (sr_ResY e); L "|"; L lf].
Ltac fits := cbn [app blanks]; rewrite line_len; cbn [total_len]; rewrite !conv_L; lens; cbn [String.length]; change (String.length lf) with 1%nat; lia.
Lemma layer_fits : forall l, layer_small l -> (String.length (line_text (layer_conv l)) < 1024)%nat.
Proof. intros l [I [S _]]. unfold short in S. unfold layer_conv, no_plate, no_pixels. fits. Qed.
Lemma material_fits : forall m, material_small m -> (String.length (line_text (material_conv m)) < 1024)%nat.
Proof.
  intros m [P S]. pose proof (plate_30 _ P). decompose [and] H. clear H. unfold short in S. unfold material_conv, no_plate, no_pixels, plate_columns. fits.
Qed.
Lemma sensor_fits : forall e, sensor_small e -> (String.length (line_text (sensor_conv e)) < 1024)%nat.
Proof.
  intros e [P [S H]]. pose proof (plate_30 _ P) as Q. decompose [and] H. decompose [and] Q. clear H Q. unfold short in S.
  unfold sensor_conv, no_plate, no_pixels, plate_columns. fits.
Qed.
(** the least length of the line of a layer *)
Lemma layer_long : forall l, (819 <= String.length (c_str (tl_info l)))%nat -> (1024 <= String.length (line_text (layer_conv l)))%nat.
Proof.
  intros l H. unfold layer_conv, no_plate, no_pixels. cbn [app blanks]. rewrite line_len. cbn [total_len]. rewrite !conv_L.
  rewrite !conv_S_empty. cbn [String.length]. change (String.length lf) with 1%nat.
  assert (A : (819 <= String.length (conv_text (S_ 14 (tl_info l))))%nat) by (cbn [conv_text]; rewrite padded_len; lia).
  assert (B : (3 <= String.length (conv_text (D 3 (tl_ID l))))%nat) by (cbn [conv_text]; rewrite padded_len; lia).
  lia.
Qed.
Lemma no_gap_word : forall s, (forall i c, String.get i s = Some c -> is_gap c = false /\ c <> "000"%char) -> no_gap s /\ c_str s = s.
Proof.
  induction s as [|c s IH]; intros H; [split; reflexivity|]. destruct (H 0%nat c eq_refl) as [G N].
  destruct IH as [A B]; [intros i d E; apply (H (Datatypes.S i) d E)|]. cbn [no_gap c_str]. split; [auto|].
  destruct (byte c =? 0)%Z eqn:E; [|now rewrite B]. exfalso. apply N. clear - E. destruct c as [[] [] [] [] [] [] [] []]; try discriminate E; reflexivity.
Qed.
Lemma word_conv : forall s, one_word s -> word_like s /\ c_str s = s /\ s <> ""%string.
Proof. intros s [N H]. destruct (no_gap_word s H) as [A B]. unfold word_like. rewrite B. auto. Qed.
Ltac row_shows I :=
  let A := fresh in let B := fresh in let C := fresh in
  destruct (word_conv _ I) as [A [B C]]; unfold line_shows, words.
Lemma layer_shows : forall l, one_word (tl_info l) -> line_shows (layer_entries l) (line_text (layer_conv l)).
Proof.
  intros l I. destruct (word_conv _ I) as [A [B C]]. unfold line_shows, words.
  replace (layer_entries l) with (conv_words (layer_conv l)).
  - apply line_words. unfold layer_conv, no_plate, no_pixels. cbn [app blanks separated]. repeat (split; try reflexivity; try discriminate; try assumption).
  - unfold layer_conv, no_plate, no_pixels, layer_entries. cbn [app blanks conv_words c_str]. rewrite B. destruct (tl_info l); [congruence|reflexivity].
Qed.
Lemma material_shows : forall m, one_word (ma_info m) -> line_shows (material_entries m) (line_text (material_conv m)).
Proof.
  intros m I. destruct (word_conv _ I) as [A [B C]]. unfold line_shows, words.
  replace (material_entries m) with (conv_words (material_conv m)).
  - apply line_words. unfold material_conv, no_plate, no_pixels, plate_columns. cbn [app blanks separated]. repeat (split; try reflexivity; try discriminate; try assumption).
  - unfold material_conv, no_plate, no_pixels, plate_columns, material_entries, plate_entries. cbn [app blanks conv_words c_str]. rewrite B. destruct (ma_info m); [congruence|reflexivity].
Qed.
Lemma sensor_shows : forall e, one_word (sr_info e) -> line_shows (sensor_entries e) (line_text (sensor_conv e)).
Proof.
  intros e I. destruct (word_conv _ I) as [A [B C]]. unfold line_shows, words.
  replace (sensor_entries e) with (conv_words (sensor_conv e)).
  - apply line_words. unfold sensor_conv, no_plate, plate_columns. cbn [app blanks separated]. repeat (split; try reflexivity; try discriminate; try assumption).
  - unfold sensor_conv, no_plate, plate_columns, sensor_entries, plate_entries. cbn [app blanks conv_words c_str]. rewrite B. destruct (sr_info e); [congruence|reflexivity].
Qed.
(** the lines of a layer *)
Definition layer_lines (l : tplayer) : list string :=
  line_text (layer_conv l) :: map (fun m => line_text (material_conv m)) (tl_mat l) ++ map (fun e => line_text (sensor_conv e)) (tl_sen l).
Lemma all_lines : forall A (f : A -> list conv) l, (forall x, In x l -> (String.length (line_text (f x)) < 1024)%nat) ->
  writes (all_of (fun x => sprintf_line (f x)) l) (fun _ => map Text (map (fun x => line_text (f x)) l)).
Proof.
  intros A f l H. eapply writes_ext; [|apply (writes_all _ _ (fun x _ => [Text (line_text (f x))])); intros x X; apply writes_sprintf, H, X].
  intros fm. cbv beta. induction l as [|x l IH]; [reflexivity|]. cbn [flat_map map app]. f_equal. apply IH. intros y Y. apply H. now right.
Qed.
Lemma tp_layers_written : forall ls, Forall layer_small ls ->
  writes (all_of (fun l => layer_row l ;; all_of material_row (tl_mat l) ;; all_of sensor_row (tl_sen l)) ls) (fun _ => map Text (flat_map layer_lines ls)).
Proof.
  intros ls H. rewrite Forall_forall in H.
  eapply writes_ext; [|apply (writes_all _ _ (fun l _ => map Text (layer_lines l)))].
  - intros f. cbv beta. induction ls as [|l ls IH]; [reflexivity|]. cbn [flat_map]. rewrite map_app. f_equal. apply IH. intros x X. apply H. now right.
  - intros l I. specialize (H l I). pose proof (proj1 (proj2 (proj2 H))) as Hm. pose proof (proj2 (proj2 (proj2 H))) as He.
    rewrite Forall_forall in Hm, He.
    eapply writes_ext; [|eapply writes_then; [apply (writes_sprintf (layer_conv l)); apply layer_fits; exact H|
      eapply writes_then; [apply (all_lines _ material_conv); intros m M; apply material_fits, Hm, M|apply (all_lines _ sensor_conv); intros e E; apply sensor_fits, He, E]]].
    intros f. unfold layer_lines. cbn [map app]. rewrite map_app. reflexivity.
Qed.
Lemma tp_written : forall t ps lp, tp_printable (t, ps) -> writes (print_params ps) lp ->
  exists l, writes (print_tp (t, ps)) l /\ forall f,
    occurs (lp f) (l f) /\
    occurs [Text " Setup ID : "; Int f (tp_id t); Text newline; Text " Number of telescope planes : "; Int f (tp_num t)] (l f) /\
    occurs [Text " Number of layers : "; Int f (tp_getNLayers t)] (l f) /\
    occurs (map Text (flat_map layer_lines (tp_layers t))) (l f).
Proof.
  intros t ps lp H W. unfold tp_printable in H. cbn [fst] in H. pose proof (tp_layers_written _ H) as T.
  eexists. split; [unfold print_tp, PrintHeader, PrintLayers, PrintFooter; wr|]. intros f. cbn [app]. repeat split; try (rewrite <- ?app_assoc; cbn [app]; occ).
Qed.
Lemma tp_quiet : forall o, tp_printable o -> quiet (print_tp o).
Proof.
  intros [s ps] H. destruct (params_quiet ps) as [lp W]. destruct (tp_written s ps lp H W) as [l [Wl _]]. now exists l.
Qed.
Lemma layer_lines_show : forall ls, Forall infos_are_words ls -> Forall2 line_shows (flat_map tp_rows ls) (flat_map layer_lines ls).
Proof.
  assert (M : forall A (es : A -> list entry) (tx : A -> string) l, (forall a, In a l -> line_shows (es a) (tx a)) -> Forall2 line_shows (map es l) (map tx l)).
  { intros A es tx l H. induction l as [|a l IH]; constructor; [apply H; now left|]. apply IH. intros b B. apply H. now right. }
  induction 1 as [|l ls [A [B C]] _ IH]; [constructor|]. cbn [flat_map]. apply Forall2_app; [|exact IH].
  unfold tp_rows, layer_lines. constructor; [now apply layer_shows|]. rewrite Forall_forall in B, C. apply Forall2_app; apply M; intros a X.
  - apply material_shows. now apply B.
  - apply sensor_shows. now apply C.
Qed.

(** a long text *)
Definition ends_well_or_not (p : printer) : Prop := quiet p \/ forall s, p s = SUB.
Lemma either_then : forall p q, ends_well_or_not p -> ends_well_or_not q -> ends_well_or_not (p ;; q).
Proof.
  intros p q [P|P] [Q|Q].
  - left. now apply quiet_then.
  - right. now apply then_sub.
  - right. intros s. now apply sub_then.
  - right. intros s. now apply sub_then.
Qed.
Lemma either_all : forall A (f : A -> printer) l, (forall x, ends_well_or_not (f x)) -> ends_well_or_not (all_of f l).
Proof.
  induction l as [|x l IH]; intros H; cbn [all_of]; [left; eexists; apply writes_nothing|]. apply either_then; [apply H|now apply IH].
Qed.
Lemma tp_too_long : forall t ps l s, In l (tp_layers t) -> (819 <= String.length (c_str (tl_info l)))%nat -> print_tp (t, ps) s = SUB.
Proof.
  intros t ps l s I H. revert s. unfold print_tp, PrintHeader.
  do 9 (apply then_sub; [first [exact (quiet_writes _ _ (writes_text _)) | exact (quiet_writes _ _ writes_endl)
  | exact (quiet_writes _ _ (writes_int _)) | apply params_quiet]|]).
  do 2 (apply then_sub; [first [exact (quiet_writes _ _ (writes_text _)) | exact (quiet_writes _ _ writes_endl)
  | exact (quiet_writes _ _ (writes_int _)) | apply params_quiet]|]).
  apply then_sub; [eexists; wr|]. apply sub_then. unfold PrintLayers. apply sub_then. apply too_long.
  - intros x _. apply either_then; [apply sprintf_either|]. apply either_then; apply either_all; intros y; apply sprintf_either.
  - exists l. split; [exact I|]. apply sub_then. intros s. unfold layer_row. fold (layer_conv l). pose proof (layer_long l H) as LL. unfold sprintf_line.
    destruct (Nat.ltb_spec (String.length (line_text (layer_conv l))) 1024); [lia|reflexivity].
Qed.
