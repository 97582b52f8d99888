(** Proofs about pad layouts in files (C35). *)
From Coq Require Import ZArith List String Ascii Bool Reals Lia Lra.
From Flocq Require Import Core.Raux.
From Verif Require Import Base BaseProofs RBase BitProofs XmlModel XmlSpec XmlProofs NumModel NumSpec NumProofs NumProofs2 PiBounds HxModel HxSpec HxProofs
  DiskBase FpsModel FpaModel VdModel DiskSpec DiskProofs FpsProofs FpaProofs VdProofs PadXmlModel PadXmlSpec.
Import ListNotations.
Open Scope list_scope.
Open Scope R_scope.

Ltac pairs := split; [reflexivity | split; [reflexivity|]]; intros v I; cbn in I;
  repeat (destruct I as [<-|I]; [first [apply print_int_clean | apply print_double_clean | apply plain_clean; reflexivity]|]); destruct I.

Lemma no_attr : forall n l ch k, pairs_ok l -> existsb (String.eqb k) (map fst l) = false ->
  getXMLAttribute (XElem n (attrs_of l) ch) k = Throw (EParse k).
Proof.
  intros n l ch k P H. rewrite attrs_of_ok by exact P. unfold getXMLAttribute, Attribute. rewrite find_attr_notin; [reflexivity|].
  intros I. assert (existsb (String.eqb k) (map fst l) = true); [|congruence]. apply existsb_exists. exists k. split; [exact I | apply String.eqb_refl].
Qed.

Lemma leaf_via : forall n l, xml_nameb n = true -> pairs_ok l -> via_file (XElem n (attrs_of l) []) = Ok (XElem n (attrs_of l) []).
Proof. intros n l N P. apply via_writable; [|reflexivity]. apply elem_writable; [exact N | exact P | intros x [] | exact I]. Qed.

(** ** Fixed pad size *)
Definition fps_pairs (l : fps) : list (string * string) :=
  [("type", "FixedPadSizeDiskLayout"); ("rMin", print_double (f_rMin l)); ("rMax", print_double (f_rMax l));
     ("padHeight", print_double (fps_getPadHeight l 1)); ("padWidth", print_double (fps_getFixedPadWidth l));
     ("maxRow", print_int (fps_getNRows l)); ("padGap", print_double (fps_getPadGap l));
     ("phiMax", print_double (f_phiMax l))]%string.
Lemma fps_pairs_ok : forall l, pairs_ok (fps_pairs l).
Proof. intros l. pairs. Qed.

Lemma reload_fps : forall l, is_int (fps_getNRows l) -> reload fps_toXML fps_fromXML l =
  new_fps (atof (print_double (f_rMin l))) (atof (print_double (f_rMax l))) (atof (print_double (f_padHeight l)))
    (atof (print_double (f_padWidth l))) (fps_getNRows l) (atof (print_double (f_padGap l))) (atof (print_double (f_phiMax l))).
Proof.
  intros l N. unfold reload, fps_toXML. cbn [rbind]. fold (fps_pairs l). pose proof (fps_pairs_ok l) as P.
  rewrite leaf_via by (exact P || reflexivity). cbn [rbind]. unfold fps_fromXML.
  rewrite (get_double_attr _ _ _ "rMin" (f_rMin l) P) by (cbn; tauto).
  rewrite (get_double_attr _ _ _ "rMax" (f_rMax l) P) by (cbn; tauto).
  rewrite (get_double_attr _ _ _ "padHeight" (f_padHeight l) P) by (cbn; tauto).
  rewrite (get_double_attr _ _ _ "padWidth" (f_padWidth l) P) by (cbn; tauto).
  rewrite (get_int_attr _ _ _ "maxRow" (fps_getNRows l) P) by (cbn; tauto || exact N).
  rewrite (get_double_attr _ _ _ "padGap" (f_padGap l) P) by (cbn; tauto).
  rewrite (get_double_attr _ _ _ "phiMax" (f_phiMax l) P) by (cbn; tauto). reflexivity.
Qed.

Lemma is_int_ok : forall z, int_ok z <-> is_int z.
Proof. intros z. unfold int_ok, is_int. lia. Qed.

Lemma fps_kept_iff : forall a h l, fps_made a h l ->
  (reload fps_toXML fps_fromXML l = Ok (fps_clone l) <-> kept_fps l).
Proof.
  intros a h l HM. pose proof (fps_made_rep _ _ _ HM) as HR. destruct HM as [l0 [H0 H1]].
  destruct (fps_asked_rep a h l0 (new_fps_rep _ _ H0) l H1) as [_ [c EL]].
  pose proof (frep_small a l HR) as SM. pose proof (fr_n a l HR) as Hn. pose proof (fr_len a l HR) as Hlen.
  assert (NR : fps_getNRows l = f_nRow l) by exact Hlen.
  assert (NI : is_int (fps_getNRows l)) by (rewrite NR; unfold is_int; lia).
  rewrite (reload_fps l NI).
  assert (TW : -2 * PI <= f_phiMax l <= 2 * PI).
  { rewrite (fr_phi a l HR). unfold fphi. pose proof PI2_pos. apply wrap_window. lra. }
  pose proof (within_turn _ TW) as TW2.
  assert (IFF : forall x y z w g p, -2 * PI <= p <= 2 * PI -> 
     new_fps x y z w (fps_getNRows l) g p = Ok (fps_clone l) ->
     x = f_rMin l /\ y = f_rMax l /\ z = f_padHeight l /\ w = f_padWidth l /\ g = f_padGap l /\ p = f_phiMax l).
  { intros x y z w g p PP E. unfold new_fps in E. destruct (Rleb z 0 || Rleb w 0)%bool; [discriminate|].
    destruct (to_int _) as [nr| |]; cbn [rbind] in E; try discriminate.
    match type of E with (if ?b then _ else _) = _ => destruct b; [discriminate|] end.
    match type of E with rmap _ ?r = _ => destruct r; cbn [rmap] in E; try discriminate end.
    injection E as E1 E2 E3 E4 E5 E6 E7 E8 E9 E10. rewrite wrap_id in E3 by lra. repeat split; congruence. }
  split.
  - intros E. destruct (IFF _ _ _ _ _ _ TW2 E) as [A [B [C [D [F G]]]]]. repeat split; assumption.
  - intros [A [B [C [D [F G]]]]]. unfold kept in *. rewrite A, B, C, D, F, G. clear IFF TW2.
    rewrite NR. destruct (fr_choice a l HR) as [nr [Enr Hch]].
    subst l. cbn [f_rMin f_rMax f_padHeight f_padWidth f_padGap f_phiMax f_nRow set_fcache fps_clone] in *.
    unfold new_fps in H0 |- *. 
    destruct (Rleb (fa_padHeight a) 0 || Rleb (fa_padWidth a) 0)%bool eqn:POS; [discriminate|].
    rewrite Enr in H0. cbn [rbind] in H0.
    match type of H0 with (if ?b then _ else _) = _ => destruct b eqn:NEG; [discriminate|] end.
    match type of H0 with rmap _ ?r = _ => destruct r as [rows| |] eqn:ROWS; cbn [rmap] in H0; try discriminate end.
    injection H0 as H0. subst l0. cbn [f_rMin f_rMax f_padHeight f_padWidth f_padGap f_phiMax f_nRow set_fcache fps_clone f_rowHeight f_nPad f_rows] in *.
    rewrite POS, Enr. cbn [rbind]. rewrite wrap_id by (pose proof PI2_pos; apply wrap_window; lra).
    set (n := if (nr <? fa_nRow a)%Z then nr else if (0 <? fa_nRow a)%Z then fa_nRow a else nr) in *.
    assert (NN : (if (nr <? n)%Z then nr else if (0 <? n)%Z then n else nr) = n).
    { unfold n in *. destruct (Z.ltb_spec nr (fa_nRow a)), (Z.ltb_spec 0 (fa_nRow a)); repeat match goal with |- context[Z.ltb ?x ?y] => destruct (Z.ltb_spec x y) end; try lia. }
    rewrite NN, NEG, ROWS. reflexivity.
Qed.

(** ** Fixed pad angle *)
Definition fpa_pairs (l : fpa) : list (string * string) :=
  [("type", "FixedPadAngleDiskLayout"); ("rMin", print_double (p_rMin l)); ("rMax", print_double (p_rMax l));
     ("nRow", print_int (fpa_getNRows l)); ("phiMin", print_double (p_phiMin l)); ("phiMax", print_double (p_phiMax l));
     ("nPadInRow", print_int (fpa_getNPadsInRow l))]%string.
Lemma fpa_pairs_ok : forall l, pairs_ok (fpa_pairs l).
Proof. intros l. pairs. Qed.

Lemma fpa_never_loads : forall l, is_int (fpa_getNRows l) -> reload fpa_toXML fpa_fromXML l = Throw (EParse "nPadsInRow").
Proof.
  intros l N. unfold reload, fpa_toXML. cbn [rbind]. fold (fpa_pairs l). pose proof (fpa_pairs_ok l) as P.
  rewrite leaf_via by (exact P || reflexivity). cbn [rbind]. unfold fpa_fromXML.
  rewrite (get_double_attr _ _ _ "rMin" (p_rMin l) P) by (cbn; tauto).
  rewrite (get_double_attr _ _ _ "rMax" (p_rMax l) P) by (cbn; tauto).
  rewrite (get_int_attr _ _ _ "nRow" (fpa_getNRows l) P) by (cbn; tauto || exact N).
  rewrite (get_double_attr _ _ _ "phiMin" (p_phiMin l) P) by (cbn; tauto).
  rewrite (get_double_attr _ _ _ "phiMax" (p_phiMax l) P) by (cbn; tauto). cbn [rbind].
  unfold get_int. rewrite no_attr by (exact P || reflexivity). reflexivity.
Qed.

(** a full ring of 13 pads is read as one of 12 *)
Definition thin : R := atof (print_double (4833219467 / 10000000000)).
Lemma thin_value : 48332194669 / 100000000000 < thin < 48332194671 / 100000000000 /\
  6283185307099 / 1000000000000 < 13 * thin < 6283185307101 / 1000000000000 /\ kept thin.
Proof.
  assert (T : ten_digits (4833219467 / 10000000000) = 4833219467 / 10000000000).
  { rewrite (digits_at _ (-1) 4833219467).
    - change (powerRZ 10 (-1 - 9)) with (/ 10 ^ 10). lra.
    - change (powerRZ 10 (-1)) with (/ 10 ^ 1). change (powerRZ 10 (-1 + 1)) with 1. lra.
    - change (powerRZ 10 (9 - -1)) with (10 ^ 10). apply Rabs_def1; lra. }
  pose proof (to_double_close (4833219467 / 10000000000) ltac:(apply small_norm; lra)) as C.
  rewrite (Rabs_pos_eq (4833219467 / 10000000000)) in C by lra. apply Rabs_le_inv in C.
  assert (E : thin = to_double (4833219467 / 10000000000)) by (unfold thin; rewrite atof_print, T; reflexivity).
  rewrite E. split; [lra|]. split; [lra|]. rewrite <- E. unfold kept, thin. apply double_stable.
  right. rewrite Rabs_pos_eq by lra. split.
  - apply Rle_trans with (powerRZ 2 (-2)); [apply pow2_le; lia|]. change (powerRZ 2 (-2)) with (/ 2 ^ 2). lra.
  - apply Rle_trans with (powerRZ 2 0); [change (powerRZ 2 0) with 1; lra | apply pow2_le; lia].
Qed.

Lemma to_int_at : forall x n, IZR n <= x < IZR (n + 1) -> (0 <= n)%Z -> int_ok n -> to_int x = Ok n.
Proof.
  intros x n [L U] N K. unfold to_int. rewrite Ztrunc_floor by (apply Rle_trans with (IZR n); [apply IZR_le; lia | exact L]).
  rewrite (Zfloor_imp n) by (split; assumption). apply int_okb_true in K. rewrite K. reflexivity.
Qed.

Lemma ring_of : forall p n, 0 <= p <= 2 * PI -> (0 <= n <= 100)%Z -> IZR n * thin <= p < IZR (n + 1) * thin ->
  new_fps (1 / 2) (3 / 2) 1 thin 1 0 p = Ok (mkFps (1 / 2) (3 / 2) p ((3 / 2 - 1 / 2) / 1) thin 1 0 1 n
    [mkF n (1 / 2 + 0 * ((3 / 2 - 1 / 2) / 1) + 1 / 2 * ((3 / 2 - 1 / 2) / 1)) (p / IZR n)] [None]).
Proof.
  intros p n P N H. destruct thin_value as [T _]. unfold new_fps.
  assert (R1 : Rleb 1 0 = false) by (apply Rleb_false; lra).
  assert (R2 : Rleb thin 0 = false) by (apply Rleb_false; lra).
  rewrite R1, R2. cbn [orb]. rewrite wrap_id by (pose proof PI2_pos; lra).
  rewrite (to_int_at _ 1); [|cbn; lra | lia | unfold int_ok; lia]. cbn [rbind].
  change (0 <? 1)%Z with true. change (1 <? 1)%Z with false. change (1 <? 0)%Z with false. cbv iota. change (Z.to_nat 1) with 1%nat.
  cbn [fps_rows repeat]. 
  assert (F : floor_div ((1 / 2 + 0 * ((3 / 2 - 1 / 2) / 1) + 1 / 2 * ((3 / 2 - 1 / 2) / 1)) * p) (thin + 0) = Ok n).
  { unfold floor_div. destruct (Reqb_spec (thin + 0) 0); [lra|].
    rewrite (Zfloor_imp n).
    - unfold to_int. rewrite Ztrunc_IZR. replace (int_okb n) with true; [reflexivity|]. symmetry. apply int_okb_true. unfold int_ok. lia.
    - replace ((1 / 2 + 0 * ((3 / 2 - 1 / 2) / 1) + 1 / 2 * ((3 / 2 - 1 / 2) / 1)) * p / (thin + 0)) with (p / thin) by (field; lra).
      split; [apply Rmult_le_reg_r with thin | apply Rmult_lt_reg_r with thin]; try lra; unfold Rdiv; rewrite Rmult_assoc, Rinv_l by lra; lra. }
  cbn [rmap rbind]. rewrite F. cbn [rmap rbind sum_npad f_NPad]. rewrite Z.add_0_r. reflexivity.
Qed.

Lemma ring_loses_pad : exists a l l', fps_sane a /\ fa_phiMax a = 2 * PI /\ fps_made a [] l /\
  kept (fa_rMin a) /\ kept (fa_rMax a) /\ kept (fa_padHeight a) /\ kept (fa_padWidth a) /\ kept (fa_padGap a) /\
  reload fps_toXML fps_fromXML l = Ok l' /\ fps_getNPads l = 13%Z /\ fps_getNPads l' = 12%Z.
Proof.
  destruct thin_value as [T [T13 TK]]. pose proof pi_bounds as PB. pose proof turn_read as TR.
  assert (W : forall z : Z, (Z.abs z < 10 ^ 10)%Z -> kept (IZR z)) by (intros z Z; apply whole_kept; exact Z).
  assert (H : forall z, (Z.abs z < 10 ^ 9)%Z -> kept (IZR z / 2)).
  { intros z Z. unfold kept. rewrite atof_print.
    replace (ten_digits (IZR z / 2)) with (IZR z / 2).
    - unfold to_double. apply Generic_fmt.round_generic; [apply _|]. apply double_format. exists z, (-1)%Z. split; [change (powerRZ 2 (-1)) with (/ (2 * 1)); field|]. split; [|lia].
      change (10 ^ 9)%Z with 1000000000%Z in Z. change (2 ^ 53)%Z with 9007199254740992%Z. lia.
    - symmetry. unfold ten_digits. apply Generic_fmt.round_generic; [apply _|]. apply ten_format. exists (5 * z)%Z, (-1)%Z. split; [rewrite mult_IZR; change (powerRZ 10 (-1)) with (/ (10 * 1)); field|].
      change (10 ^ 10)%Z with 10000000000%Z. change (10 ^ 9)%Z with 1000000000%Z in Z. lia. }
  exists (mkFpsArgs (1 / 2) (3 / 2) 1 thin 1 0 (2 * PI)).
  eexists. eexists. split; [unfold fps_sane; cbn; lra|]. split; [reflexivity|].
  split; [eexists; split; [cbn; apply (ring_of (2 * PI) 13); [lra | lia | cbn; lra] | reflexivity]|].
  cbn [fa_rMin fa_rMax fa_padHeight fa_padWidth fa_padGap].
  assert (K1 : kept (1 / 2)) by (apply (H 1%Z); reflexivity). assert (K2 : kept (3 / 2)) by (apply (H 3%Z); reflexivity).
  assert (K3 : kept 1) by (apply (W 1%Z); reflexivity). assert (K4 : kept 0) by (apply (W 0%Z); reflexivity).
  split; [exact K1|]. split; [exact K2|]. split; [exact K3|]. split; [exact TK|]. split; [exact K4|].
  split; [|split; [reflexivity|]].
  - rewrite reload_fps by (unfold is_int; cbn; lia). cbn [f_rMin f_rMax f_padHeight f_padWidth f_padGap f_phiMax fps_getNRows f_rows].
    unfold kept in K1, K2, K3, K4, TK. rewrite K1, K2, K3, K4, TK. apply (ring_of _ 12); [lra | lia | cbn; lra].
  - reflexivity.
Qed.

Lemma full_ring_changed : forall a h l, fps_made a h l -> fa_phiMax a = 2 * PI ->
  reload fps_toXML fps_fromXML l <> Ok (fps_clone l).
Proof.
  intros a h l HM P E. pose proof (fps_made_rep _ _ _ HM) as HR. apply (fps_kept_iff a h l HM) in E. destruct E as [_ [_ [_ [_ [_ K]]]]].
  rewrite (fr_phi a l HR) in K. rewrite fphi_id in K by (rewrite P; pose proof PI2_pos; lra). rewrite P in K. exact (turn_not_kept K).
Qed.

(** ** Versatile rows *)
Definition vd_row_pairs (r : vrow) : list (string * string) :=
  [("nPad", print_int (v_nPads r)); ("padPitch", print_double (v_padPitch r));
     ("rowHeight", print_double (v_rowHeight r)); ("padWidth", print_double (v_padWidth r));
     ("padHeight", print_double (v_padHeight r)); ("offset", print_double (v_offset r))]%string.
Lemma vd_row_pairs_ok : forall r, pairs_ok (vd_row_pairs r).
Proof. intros r. pairs. Qed.

Lemma vd_row_elem_eq : forall r, vd_row_elem r = XElem "row" (attrs_of (vd_row_pairs r)) [].
Proof.
  intros r. unfold vd_row_elem, vd_row_pairs, attrs_of. cbn [fold_left fst snd].
  match goal with |- context [SetAttribute "padPitch" ?v (SetAttribute "padPitch" ?v ?a)] =>
    assert (E : SetAttribute "padPitch" v (SetAttribute "padPitch" v a) = SetAttribute "padPitch" v a) end.
  { set (v := print_double (v_padPitch r)).
    assert (V : no_nul v) by apply print_double_clean.
    assert (P : no_nul "padPitch") by (apply (plain_clean "padPitch"); reflexivity).
    unfold SetAttribute. rewrite !(c_str_id "padPitch") by exact P. rewrite !(c_str_id v) by exact V.
    rewrite !(c_str_id "nPad") by (apply (plain_clean "nPad"); reflexivity). cbn.
    reflexivity. }
  rewrite E. reflexivity.
Qed.

Lemma vd_row_writable : forall r, writable (vd_row_elem r).
Proof. intros r. rewrite vd_row_elem_eq. apply elem_writable; [reflexivity | apply vd_row_pairs_ok | intros x [] | exact I]. Qed.

(** what is read for the row [x] *)
Definition reread (x : R) : R := atof (print_double x).
Definition vd_back (k : Z) (x : R * vd_args) : vd_args :=
  let r := the_row k x in
  mkVdArgs (v_nPads r) (reread (v_padPitch r)) (reread (v_rowHeight r)) (reread (v_offset r)) (atof "0.0") (reread (v_padHeight r)) 1.

Lemma vd_read_elem : forall l k x, is_int (va_nPads (snd x)) -> vd_read_row l (vd_row_elem (the_row k x)) =
  let a := vd_back k x in
  outcome (vd_addRow l (va_nPads a) (va_pitch a) (va_height a) (va_offset a) (va_padWidth a) (va_padHeight a) (va_repeat a)).
Proof.
  intros l k x N. rewrite vd_row_elem_eq. set (r := the_row k x). pose proof (vd_row_pairs_ok r) as P. unfold vd_read_row.
  rewrite (get_int_attr _ _ _ "nPad" (v_nPads r) P) by (cbn; tauto || exact N). cbn [rbind].
  rewrite (get_double_attr _ _ _ "padPitch" (v_padPitch r) P) by (cbn; tauto). cbn [rbind].
  rewrite (get_double_attr _ _ _ "rowHeight" (v_rowHeight r) P) by (cbn; tauto). cbn [rbind].
  unfold get_opt_int, get_opt_double, getOptionalXMLAttribute.
  rewrite (no_attr _ _ _ "repeat") by (exact P || reflexivity).
  rewrite (no_attr _ _ _ "padWidtht") by (exact P || reflexivity).
  rewrite (get_attr _ _ _ "offset" (print_double (v_offset r)) P) by (cbn; tauto).
  rewrite (get_attr _ _ _ "padHeight" (print_double (v_padHeight r)) P) by (cbn; tauto).
  change (atoi "1") with (Ok 1%Z). reflexivity.
Qed.

Lemma read_zero : atof "0.0" = 0.
Proof. unfold atof. change (read_decimal "0.0") with (0%Z, (-1)%Z). cbv iota beta. unfold Defs.F2R. cbn [Defs.Fnum Defs.Fexp]. rewrite Rmult_0_l. apply to_double_zero. Qed.

Definition vd_fine (x : R * vd_args) : Prop := is_int (va_nPads (snd x)) /\ kept (va_height (snd x)) /\ normal (vd_pitch x).

Lemma back_good : forall k x, 1001 / 1000 <= fst x -> vd_good (fst x) (snd x) -> vd_fine x -> vd_good (fst x) (vd_back k x).
Proof.
  intros k x L G [N [K NP]]. destruct G as [G1 [G2 [G3 [G4 [G5 G6]]]]]. unfold vd_back, the_row.
  pose proof read_zero as Z0. set (zz := atof "0.0") in *. clearbody zz. subst zz. cbn.
  assert (Hrc : 1001 / 1000 < vd_rc x) by (unfold vd_rc; lra).
  assert (PP : 0 <= vd_pitch x) by (unfold vd_pitch; apply Rmult_le_pos; [lra | left; apply Rinv_0_lt_compat; lra]).
  pose proof (double_close _ NP) as C. fold (reread (vd_pitch x)) in C. rewrite (Rabs_pos_eq (vd_pitch x)) in C by lra. apply Rabs_le_inv in C.
  assert (RP : 0 <= reread (vd_pitch x)) by lra.
  assert (RH : reread (va_height (snd x)) = va_height (snd x)) by exact K. rewrite RH.
  unfold vd_good. cbn. split; [lia|]. split; [exact RP|]. split; [lra|]. split; [exact G4|]. split; [lia|].
  assert (F : vd_pitch x * IZR (va_nPads (snd x)) <= 2 * PI).
  { unfold vd_pitch. apply Rmult_le_reg_r with (vd_rc x); [lra|].
    replace (va_pitch (snd x) / vd_rc x * IZR (va_nPads (snd x)) * vd_rc x) with (va_pitch (snd x) * IZR (va_nPads (snd x))) by (field; lra).
    unfold vd_rc. lra. }
  assert (NN : 0 <= IZR (va_nPads (snd x))) by (apply IZR_le; lia).
  pose proof PI2_pos. change (fst x + va_height (snd x) / 2) with (vd_rc x).
  apply Rle_trans with (1001 / 1000 * (vd_pitch x * IZR (va_nPads (snd x)))); [|nra].
  apply Rle_trans with (1001 / 1000 * vd_pitch x * IZR (va_nPads (snd x))); [|lra].
  apply Rmult_le_compat_r; [exact NN|]. lra.
Qed.

Lemma vd_read_rows : forall xs k rMin rows top hi l, 1001 / 1000 <= top -> vrep rMin rows top l -> stacked top xs hi ->
  (forall x, In x xs -> vd_good (fst x) (snd x) /\ vd_fine x) ->
  exists l', rfold vd_read_row (map vd_row_elem (rows_from k xs)) l = Ok l' /\
    exists ks, List.length ks = List.length xs /\ vrep rMin (rows ++ map (fun p => (fst (snd p), vd_back (fst p) (snd p))) (combine ks xs)) hi l' /\
    ks = map (fun i => Z.of_nat (k + i)) (seq 0 (List.length xs)).
Proof.
  induction xs as [|x xs IH]; intros k rMin rows top hi l T HR ST G.
  - cbn in *. subst hi. exists l. split; [reflexivity|]. exists []. cbn. rewrite app_nil_r. auto.
  - cbn in ST. destruct ST as [E ST]. destruct (G x (or_introl eq_refl)) as [GX [F1 [F2 F3]]].
    cbn [rows_from map rfold]. rewrite vd_read_elem by exact F1.
    assert (BG : vd_good top (vd_back (Z.of_nat k) x)).
    { rewrite <- E. apply back_good; [lra | exact GX | exact (conj F1 (conj F2 F3))]. }
    destruct (vd_add_good rMin rows top l _ ltac:(lra) HR BG) as [l1 [A [HR1 _]]]. cbv zeta. rewrite A. cbn [outcome rbind].
    change (va_repeat (vd_back (Z.of_nat k) x)) with 1%Z in HR1. change (Z.to_nat 1) with 1%nat in HR1.
    assert (VH : va_height (vd_back (Z.of_nat k) x) = va_height (snd x)) by exact F2.
    assert (M1 : more_rows top (vd_back (Z.of_nat k) x) 1 = [(top, vd_back (Z.of_nat k) x)]) by (rewrite more_rows_S; reflexivity).
    rewrite M1 in HR1. replace (top + 1 * va_height (vd_back (Z.of_nat k) x)) with (top + va_height (snd x)) in HR1 by (rewrite VH; ring).
    destruct GX as [_ [_ [_ [HP _]]]].
    destruct (IH (S k) rMin _ (top + va_height (snd x)) hi l1 ltac:(lra) HR1 ST) as [l2 [B [ks [KL [HR2 KS]]]]].
    { intros y Y. apply G. right. exact Y. }
    exists l2. split; [exact B|]. exists (Z.of_nat k :: ks). split; [cbn; lia|]. split.
    + cbn [combine map fst snd]. rewrite <- app_assoc in HR2. cbn [app] in HR2. rewrite E. exact HR2.
    + subst ks. cbn [List.length seq map]. rewrite Nat.add_0_r. f_equal. rewrite <- seq_shift, map_map. apply map_ext. intros i. f_equal. lia.
Qed.

Lemma combine_nth_error : forall A B (l : list A) (m : list B) n a b, nth_error l n = Some a -> nth_error m n = Some b ->
  nth_error (combine l m) n = Some (a, b).
Proof.
  intros A B. induction l as [|x l IH]; intros [|y m] [|n] a b H1 H2; cbn in *; try discriminate; [congruence|]. apply IH; assumption.
Qed.

Lemma vd_pitch_shrinks : forall rMin h l rows top, 1001 / 1000 <= rMin -> kept rMin ->
  vd_made rMin h l -> vd_story rMin h rows top ->
  (forall x, In x rows -> is_int (va_nPads (snd x)) /\ kept (va_height (snd x)) /\ normal (vd_pitch x)) ->
  exists l', reload vd_toXML vd_fromXML l = Ok l' /\
    List.length (v_rows l') = List.length (v_rows l) /\ v_e0 l' = v_e0 l /\ v_e1 l' = v_e1 l /\
    forall k r, nth_error (v_rows l) k = Some r -> exists r', nth_error (v_rows l') k = Some r' /\
      v_nPads r' = v_nPads r /\ v_rowHeight r' = v_rowHeight r /\ v_rCentre r' = v_rCentre r /\
      v_padPitch r' = atof (print_double (v_padPitch r)) / v_rCentre r /\ v_padWidth r' = v_padPitch r' /\
      (0 < v_padPitch r -> v_padPitch r' < v_padPitch r).
Proof.
  intros rMin h l rows top H1 KM HM HS HF. pose proof (vd_rep rMin h l rows top ltac:(lra) HM HS) as HR.
  destruct (story_facts rMin h rows top ltac:(lra) HS) as [ST1 [ST GD]].
  set (ps := [("type", "VersatileDiskRowLayout"); ("rMin", print_double (v_e0 l))]%string).
  assert (P : pairs_ok ps) by (unfold ps; pairs).
  assert (W : via_file (XElem "PadRowLayout2D" (attrs_of ps) (map vd_row_elem (v_rows l))) =
              Ok (XElem "PadRowLayout2D" (attrs_of ps) (map vd_row_elem (v_rows l)))).
  { apply via_writable; [|reflexivity]. apply elem_writable; [reflexivity | exact P | |].
    - intros x I. apply in_map_iff in I. destruct I as [r [<- _]]. apply vd_row_writable.
    - apply elements_no_text. intros x I. apply in_map_iff in I. destruct I as [r [<- _]]. reflexivity. }
  destruct (vd_read_rows rows 0 rMin [] rMin top (new_vd rMin) H1) as [l' [B [ks [KL [HR' KS]]]]].
  - split; reflexivity || (cbn; auto). intros i v E. destruct i; discriminate.
  - exact ST.
  - intros x I. destruct (GD x I) as [G0 G]. split; [exact G | apply HF; exact I].
  - exists l'. split; [|split; [|split; [|split]]].
    + unfold reload, vd_toXML. cbn [rbind]. fold ps. rewrite W. cbn [rbind]. unfold vd_fromXML.
      rewrite (get_double_attr _ _ _ "rMin" (v_e0 l) P) by (cbn; tauto). cbn [rbind].
      unfold IterateChildren. cbn [children]. rewrite filter_all.
      * rewrite (vr_e0 _ _ _ _ HR), (vr_rows _ _ _ _ HR), KM. exact B.
      * intros x I. apply in_map_iff in I. destruct I as [r [<- _]]. reflexivity.
    + rewrite (vr_rows _ _ _ _ HR), (vr_rows _ _ _ _ HR'), !rows_from_length. cbn [app]. rewrite map_length, combine_length, KL. lia.
    + rewrite (vr_e0 _ _ _ _ HR), (vr_e0 _ _ _ _ HR'). reflexivity.
    + rewrite (vr_e1 _ _ _ _ HR), (vr_e1 _ _ _ _ HR'). reflexivity.
    + intros k r E. rewrite (vr_rows _ _ _ _ HR), rows_from_nth in E. destruct (nth_error rows k) as [x|] eqn:EX; [|discriminate].
      cbn [option_map Nat.add] in E. injection E as <-.
      assert (KK : nth_error ks k = Some (Z.of_nat k)).
      { assert (LK : (k < List.length rows)%nat) by (apply nth_error_Some; congruence).
        assert (EN : nth_error (seq 0 (List.length rows)) k = Some k).
        { rewrite (nth_error_nth' _ 0%nat) by (rewrite seq_length; exact LK). rewrite seq_nth by exact LK. reflexivity. }
        rewrite KS. rewrite (map_nth_error _ _ _ EN). reflexivity. }
      pose proof (combine_nth_error _ _ _ _ _ _ _ KK EX) as EC.
      rewrite (vr_rows _ _ _ _ HR'), rows_from_nth. cbn [app]. rewrite (map_nth_error _ _ _ EC). cbn [option_map fst snd Nat.add].
      assert (IX : In x rows) by (eapply nth_error_In; exact EX).
      destruct (GD x IX) as [G0 GX]. destruct (HF x IX) as [F1 [F2 F3]]. destruct GX as [_ [GP [_ [GH _]]]].
      pose proof read_zero as Z0. unfold vd_back. set (zz := atof "0.0") in *. clearbody zz. subst zz.
      assert (RH : reread (va_height (snd x)) = va_height (snd x)) by exact F2.
      eexists. split; [reflexivity|]. unfold the_row, vd_rc, vd_pitch. cbn [snd fst v_nPads v_rowHeight v_rCentre v_padPitch v_padWidth
        va_nPads va_height va_pitch va_padWidth va_padHeight].
      rewrite RH. fold (vd_rc x). fold (vd_pitch x). split; [reflexivity|]. split; [reflexivity|]. split; [reflexivity|].
      fold (reread (vd_pitch x)). split; [reflexivity|]. split.
      * destruct (Reqb_spec 0 0); [reflexivity | lra].
      * intros PP. pose proof (double_close _ F3) as C. fold (reread (vd_pitch x)) in C. rewrite (Rabs_pos_eq (vd_pitch x)) in C by lra.
        apply Rabs_le_inv in C. assert (RC : 1001 / 1000 < vd_rc x) by (unfold vd_rc; lra).
        match goal with |- ?a / ?b < _ => change b with (vd_rc x) end.
        apply Rmult_lt_reg_r with (vd_rc x); [lra|]. replace (reread (vd_pitch x) / vd_rc x * vd_rc x) with (reread (vd_pitch x)) by (field; lra).
        change (va_pitch (snd x) / vd_rc x) with (vd_pitch x) in *.
        assert (1001 / 1000 * vd_pitch x < vd_pitch x * vd_rc x) by (rewrite Rmult_comm; apply Rmult_lt_compat_l; assumption).
        lra.
Qed.
