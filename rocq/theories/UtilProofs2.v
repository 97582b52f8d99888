(** Proofs about the tables: their lines, and when they fit. *)
From Coq Require Import ZArith List String Ascii Bool Reals Lia Lra.
From Flocq Require Import Core.
From Verif Require Import Base BaseProofs RBase XmlModel XmlSpec XmlProofs NumModel NumSpec NumProofs VecModel ParamsModel CaloModel CaloSpec CaloProofs
  ZpModel ZpSpec FtdModel FtdSpec FtdProofs TrkModel TpcModuleModel TpcModel CaloXmlModel TrkXmlModel TpcXmlModel GearXmlModel UtilModel UtilSpec UtilTextProofs UtilProofs.
Import ListNotations.
Local Open Scope list_scope.

(** ** Lines *)
Lemma conv_F_le : forall w p x b, at_most (Z.of_nat b) x -> (String.length (conv_text (F w p x)) <= Nat.max w (b + p + 3))%nat.
Proof. intros. cbn [conv_text]. rewrite padded_len. pose proof (fixed_len_le p x b H). lia. Qed.
Lemma conv_F_ge : forall w p x b, IZR (10 ^ Z.of_nat b) <= x ->
  (b + 1 + match p with O => O | _ => S p end <= String.length (conv_text (F w p x)))%nat.
Proof. intros. cbn [conv_text]. rewrite padded_len. pose proof (fixed_len_ge p x b H). lia. Qed.
Lemma conv_D_le : forall w z, int_ok z -> (w <= 11)%nat -> (String.length (conv_text (D w z)) <= 11)%nat.
Proof. intros. cbn [conv_text]. rewrite padded_len. pose proof (print_int_len z H). lia. Qed.
Lemma conv_S_le : forall w s n, (String.length s <= n)%nat -> (w <= n)%nat -> (String.length (conv_text (S_ w s)) <= n)%nat.
Proof. intros. cbn [conv_text]. rewrite padded_len. pose proof (c_str_len s). lia. Qed.
Lemma conv_S_empty : forall w, String.length (conv_text (S_ w "")) = w.
Proof. intros. cbn [conv_text c_str]. rewrite padded_len. cbn [String.length]. lia. Qed.
Lemma conv_L : forall s, String.length (conv_text (L s)) = String.length s.
Proof. reflexivity. Qed.

Lemma rows_from : forall A (h : list A) (f : Z -> printer) (row : A -> string) k,
  (forall i a, nth_error h i = Some a -> writes (f (Z.of_nat (k + i))) (fun _ => [Text (row a)])) ->
  writes (all_of f (map Z.of_nat (seq k (List.length h)))) (fun _ => map (fun a => Text (row a)) h).
Proof.
  induction h as [|a h IH]; intros f row k H; [apply writes_nothing|]. cbn [List.length seq map all_of].
  apply (writes_then (f (Z.of_nat k)) _ (fun _ => [Text (row a)]) (fun _ => map (fun a => Text (row a)) h)).
  - rewrite <- (Nat.add_0_r k). apply (H 0%nat a eq_refl).
  - apply IH. intros i b E. rewrite Nat.add_succ_comm. apply (H (S i) b E).
Qed.
Lemma rows_written : forall A (h : list A) (f : Z -> printer) (row : A -> string),
  (forall i a, nth_error h i = Some a -> writes (f (Z.of_nat i)) (fun _ => [Text (row a)])) ->
  writes (all_of f (UtilModel.indices (Z.of_nat (List.length h)))) (fun _ => map (fun a => Text (row a)) h).
Proof. intros. unfold UtilModel.indices. rewrite Nat2Z.id. apply rows_from. exact H. Qed.
(** a row that is too long ends it *)
Lemma too_long : forall A (f : A -> printer) l, (forall x, In x l -> quiet (f x) \/ forall s, f x s = SUB) ->
  (exists x, In x l /\ forall s, f x s = SUB) -> forall s, all_of f l s = SUB.
Proof.
  induction l as [|x l IH]; intros H [y [Y E]] s; [destruct Y|]. cbn [all_of]. unfold then_.
  destruct (H x (or_introl eq_refl)) as [[lx W]|U].
  - rewrite W. apply IH; [intros z Z; apply H; now right|]. destruct Y as [->|Y]; [specialize (E s); rewrite W in E; discriminate|].
    exists y. auto.
  - rewrite U. reflexivity.
Qed.
Lemma sprintf_either : forall l, quiet (sprintf_line l) \/ forall s, sprintf_line l s = SUB.
Proof.
  intros l. destruct (Nat.ltb_spec (String.length (line_text l)) 1024) as [H|H].
  - left. eexists. apply writes_sprintf. exact H.
  - right. intros s. unfold sprintf_line. destruct (Nat.ltb_spec (String.length (line_text l)) 1024); [lia|reflexivity].
Qed.

Lemma at_made : forall A B (g : A -> B) (h : list A) i a, nth_error h i = Some a -> at_ (map g h) (Z.of_nat i) = Ok (g a).
Proof.
  intros. unfold at_. rewrite nthZ_of_nat. rewrite (map_nth_error g i h H). reflexivity.
Qed.

(** ** Ladder detectors *)
Definition lad (a : zargs) : zlayer := layer_of a (za_lad a).
Definition senp (a : zargs) : zlayer := layer_of a (za_sen a).
Lemma zp_made_lists : forall h type rIn rOut half gap rad,
  let p := zp_made type rIn rOut half gap rad h in
  z_l p = map lad h /\ z_s p = map senp h.
Proof.
  intros h type rIn rOut half gap rad. unfold zp_made.
  assert (G : forall p, z_l (fold_left zp_addLayer h p) = z_l p ++ map lad h /\ z_s (fold_left zp_addLayer h p) = z_s p ++ map senp h).
  { induction h as [|a h IH]; intros p; cbn [fold_left map]; [now rewrite !app_nil_r|].
    destruct (IH (zp_addLayer p a)) as [H1 H2]. rewrite H1, H2. unfold zp_addLayer. cbn [z_l z_s]. rewrite <- !app_assoc. split; reflexivity. }
  apply G.
Qed.
Definition table_row (n : Z) (a b c d e f g h : R) : list conv :=
  [L "  | "; D 3 n; L "  |  "; F 4 2 a; L "  |  "; F 4 2 b; L "  |  "; F 4 2 c; L "  |  "; F 4 2 d; L "  |  ";
   F 4 2 e; L "  |  "; F 4 2 f; L "  |  "; F 4 2 g; L "  |  "; F 4 2 h; L "  |"; L lf]%string.
Definition zp_row (a : zargs) : list conv :=
  table_row (za_n a) (q_d (za_lad a)) (q_w (za_lad a)) (q_len (za_lad a)) (q_t (za_lad a))
                     (q_d (za_sen a)) (q_w (za_sen a)) (q_len (za_sen a)) (q_t (za_sen a)).
Lemma zp_line_row : forall type rIn rOut half gap rad h i a s, nth_error h i = Some a ->
  zp_line (zp_made type rIn rOut half gap rad h) (Z.of_nat i) s = sprintf_line (zp_row a) s.
Proof.
  intros type rIn rOut half gap rad h i a s E. destruct (zp_made_lists h type rIn rOut half gap rad) as [H1 H2]. cbv zeta in *.
  unfold zp_line, zp_getNLadders, zp_getLadderDistance, zp_getLadderWidth, zp_getLadderLength, zp_getLadderThickness,
    zp_getSensitiveDistance, zp_getSensitiveWidth, zp_getSensitiveLength, zp_getSensitiveThickness, of_ladder, of_sens.
  rewrite H1, H2, !(at_made _ _ lad h i a E), !(at_made _ _ senp h i a E). cbn [rmap]. unfold have. reflexivity.
Qed.
Lemma table_row_fits : forall n a b c d e f g h, int_ok n -> at_most 100 a -> at_most 100 b -> at_most 100 c -> at_most 100 d ->
  at_most 100 e -> at_most 100 f -> at_most 100 g -> at_most 100 h -> (String.length (line_text (table_row n a b c d e f g h)) < 1024)%nat.
Proof.
  intros n a b c d e f g h N A B C D E F G H. rewrite line_len. unfold table_row. cbn [total_len]. rewrite !conv_L.
  pose proof (conv_D_le 3 n N ltac:(lia)). change 100%Z with (Z.of_nat 100) in *.
  pose proof (conv_F_le 4 2 a 100 A). pose proof (conv_F_le 4 2 b 100 B). pose proof (conv_F_le 4 2 c 100 C). pose proof (conv_F_le 4 2 d 100 D).
  pose proof (conv_F_le 4 2 e 100 E). pose proof (conv_F_le 4 2 f 100 F). pose proof (conv_F_le 4 2 g 100 G). pose proof (conv_F_le 4 2 h 100 H).
  cbn [String.length] in *. change (String.length lf) with 1%nat. lia.
Qed.
Lemma table_row_long : forall n (a b c d e f g h : R), let big := IZR (10 ^ 121) in
  (big <= a)%R -> (big <= b)%R -> (big <= c)%R -> (big <= d)%R -> (big <= e)%R -> (big <= f)%R -> (big <= g)%R -> (big <= h)%R ->
  (1024 <= String.length (line_text (table_row n a b c d e f g h)))%nat.
Proof.
  intros n a b c d e f g h big A B C D E F G H. rewrite line_len. unfold table_row. cbn [total_len]. rewrite !conv_L.
  unfold big in *. change 121%Z with (Z.of_nat 121) in *.
  pose proof (conv_F_ge 4 2 a 121 A). pose proof (conv_F_ge 4 2 b 121 B). pose proof (conv_F_ge 4 2 c 121 C). pose proof (conv_F_ge 4 2 d 121 D).
  pose proof (conv_F_ge 4 2 e 121 E). pose proof (conv_F_ge 4 2 f 121 F). pose proof (conv_F_ge 4 2 g 121 G). pose proof (conv_F_ge 4 2 h 121 H).
  cbn [String.length] in *. change (String.length lf) with 1%nat. lia.
Qed.

Lemma table_row_shows : forall n a b c d e f g h,
  line_shows [Whole n; Number 2 a; Number 2 b; Number 2 c; Number 2 d; Number 2 e; Number 2 f; Number 2 g; Number 2 h] (line_text (table_row n a b c d e f g h)).
Proof.
  intros. unfold line_shows, words. apply (line_words (table_row n a b c d e f g h)).
  unfold table_row. cbn [separated]. repeat (split; try reflexivity; try discriminate).
Qed.
Lemma zp_row_fits : forall a, ladder_small a -> (String.length (line_text (zp_row a)) < 1024)%nat.
Proof.
  intros a [N [[A1 [A2 [A3 A4]]] [B1 [B2 [B3 B4]]]]]. now apply table_row_fits.
Qed.
Lemma zp_written : forall type rIn rOut half gap rad h ps lp, Forall ladder_small h -> writes (print_params ps) lp ->
  let p := zp_made type rIn rOut half gap rad h in
  exists l, writes (print_zp (p, ps)) l /\ forall f,
    occurs (lp f) (l f) /\
    occurs [Text " Shell innerR : "; Double f (z_rIn p); Text " outerR : "; Double f (z_rOut p); Text newline;
            Text "       length : "; Double f (z_half p); Text " gap "; Double f (z_gap p)] (l f) /\
    occurs [Text " Layers : "; Int f (zp_getNLayers p)] (l f) /\
    occurs (map (fun a => Text (line_text (zp_row a))) h) (l f).
Proof.
  intros type rIn rOut half gap rad h ps lp S W p.
  assert (R : writes (all_of (zp_line p) (UtilModel.indices (zp_getNLayers p))) (fun _ => map (fun a => Text (line_text (zp_row a))) h)).
  { unfold zp_getNLayers. unfold p at 2. rewrite (proj1 (zp_made_lists h type rIn rOut half gap rad)), map_length.
    apply rows_written. intros i a E s. unfold p. rewrite (zp_line_row _ _ _ _ _ _ _ _ _ _ E).
    rewrite Forall_forall in S. rewrite writes_sprintf; [reflexivity|]. apply zp_row_fits, S. now apply nth_error_In in E. }
  eexists. split; [unfold print_zp; wr|]. intros f. repeat split; occ.
Qed.
Lemma zp_quiet : forall o, zp_printable o -> quiet (print_zp o).
Proof.
  intros [p ps] [type [rIn [rOut [half [gap [rad [h [E S]]]]]]]]. cbn [fst] in E. subst p. destruct (params_quiet ps) as [lp W].
  destruct (zp_written type rIn rOut half gap rad h ps lp S W) as [l [Wl _]]. now exists l.
Qed.
Lemma then_sub : forall p q, (quiet p) -> (forall s, q s = SUB) -> forall s, (p ;; q) s = SUB.
Proof. intros p q [l W] Q s. unfold then_. rewrite W. apply Q. Qed.
Lemma sub_then : forall p q, (forall s, p s = SUB) -> forall s, (p ;; q) s = SUB.
Proof. intros p q Q s. unfold then_. rewrite Q. reflexivity. Qed.
Lemma in_indices : forall n i, In i (UtilModel.indices (Z.of_nat n)) <-> exists k, (k < n)%nat /\ i = Z.of_nat k.
Proof.
  intros n i. unfold UtilModel.indices. rewrite Nat2Z.id, in_map_iff. split.
  - intros [k [E K]]. apply in_seq in K. exists k. split; [lia|congruence].
  - intros [k [K E]]. exists k. split; [congruence|]. apply in_seq. lia.
Qed.
Ltac skip_quiet := repeat (apply then_sub; [first [exact (quiet_writes _ _ (writes_text _)) | exact (quiet_writes _ _ writes_endl)
  | exact (quiet_writes _ _ (writes_double _)) | exact (quiet_writes _ _ (writes_int _)) | apply params_quiet]|]).
Lemma zp_too_long : forall type rIn rOut half gap rad h a ps s, In a h -> part_huge (za_lad a) -> part_huge (za_sen a) ->
  print_zp (zp_made type rIn rOut half gap rad h, ps) s = SUB.
Proof.
  intros type rIn rOut half gap rad h a ps s I [A1 [A2 [A3 A4]]] [B1 [B2 [B3 B4]]].
  revert s. unfold print_zp. skip_quiet. apply sub_then. unfold zp_getNLayers.
  rewrite (proj1 (zp_made_lists h type rIn rOut half gap rad)), map_length. apply too_long.
  - intros i X. apply in_indices in X. destruct X as [k [K ->]]. apply nth_error_Some in K. destruct (nth_error h k) as [b|] eqn:E; [|congruence].
    destruct (sprintf_either (zp_row b)) as [[l W]|U].
    + left. exists l. intros s. rewrite (zp_line_row _ _ _ _ _ _ _ _ _ _ E). apply W.
    + right. intros s. rewrite (zp_line_row _ _ _ _ _ _ _ _ _ _ E). apply U.
  - apply In_nth_error in I. destruct I as [k E]. exists (Z.of_nat k). split.
    + apply in_indices. exists k. split; [apply nth_error_Some; congruence|reflexivity].
    + intros s. rewrite (zp_line_row _ _ _ _ _ _ _ _ _ _ E). unfold sprintf_line.
      destruct (Nat.ltb_spec (String.length (line_text (zp_row a))) 1024) as [Q|Q]; [|reflexivity].
      unfold zp_row in Q. pose proof (table_row_long (za_n a) _ _ _ _ _ _ _ _ A1 A2 A3 A4 B1 B2 B3 B4) as X. cbv zeta in X. lia.
Qed.

(** ** The FTD *)
Definition ftd_row (a : ftd_args) : list conv :=
  table_row (a_nPetals a) (a_supMin a) (a_supMax a) (a_supW a) (a_supT a) (a_senMin a) (a_senMax a) (a_senW a) (a_senT a).
Lemma ftd_line_row : forall h i a s, code_disk h i = Some a -> ftd_line (ftd_made h) i s = sprintf_line (ftd_row a) s.
Proof.
  intros h i a s E.
  unfold ftd_line, ftd_getNPetals, ftd_getSupportLengthMin, ftd_getSupportLengthMax, ftd_getSupportWidth, ftd_getSupportThickness,
    ftd_getSensitiveLengthMin, ftd_getSensitiveLengthMax, ftd_getSensitiveWidth, ftd_getSensitiveThickness, of_support, of_sensitive.
  rewrite !sup_at, !sen_at, E. cbn [rmap]. unfold have. reflexivity.
Qed.
Lemma ftd_line_throws : forall h i s, code_disk h i = None -> ftd_line (ftd_made h) i s = SThrow s (EOutOfRange "vector::at").
Proof.
  intros h i s E. unfold ftd_line, ftd_getNPetals, of_support. rewrite !sup_at, E. reflexivity.
Qed.
Lemma ftd_row_fits : forall a, disk_small a -> (String.length (line_text (ftd_row a)) < 1024)%nat.
Proof. intros a H. unfold disk_small in H. apply table_row_fits; tauto. Qed.
Lemma code_disk_below : forall h k, (k <= 6)%nat -> code_disk h (Z.of_nat k) = nth_error h k.
Proof.
  intros h k K. unfold code_disk. rewrite equiv_made. destruct (Z.ltb_spec 6 (Z.of_nat k)); [lia|]. apply nthZ_of_nat.
Qed.
Lemma ftd_written : forall h ps lp, Forall disk_small h -> (List.length h <= 7)%nat -> writes (print_params ps) lp ->
  exists l, writes (print_ftd (ftd_made h, ps)) l /\ forall f,
    occurs (lp f) (l f) /\
    occurs [Text " Layers : "; Int f (ftd_getNLayers (ftd_made h))] (l f) /\
    occurs (map (fun a => Text (line_text (ftd_row a))) h) (l f).
Proof.
  intros h ps lp S N W.
  assert (R : writes (all_of (ftd_line (ftd_made h)) (UtilModel.indices (ftd_getNLayers (ftd_made h)))) (fun _ => map (fun a => Text (line_text (ftd_row a))) h)).
  { rewrite made_n. apply rows_written. intros i a E s.
    assert (K : (i < List.length h)%nat) by (apply nth_error_Some; congruence).
    rewrite (ftd_line_row h _ a) by (rewrite code_disk_below by lia; exact E).
    rewrite Forall_forall in S. rewrite writes_sprintf; [reflexivity|]. apply ftd_row_fits, S. now apply nth_error_In in E. }
  eexists. split; [unfold print_ftd; wr|]. intros f. repeat split; occ.
Qed.
Lemma all_of_app : forall A (f : A -> printer) l m s, all_of f (l ++ m) s = (all_of f l ;; all_of f m) s.
Proof.
  induction l as [|x l IH]; intros m s; [reflexivity|]. cbn [app all_of]. unfold then_ at 1 2 3.
  destruct (f x s); [|reflexivity|reflexivity]. rewrite IH. reflexivity.
Qed.
Definition fails (p : printer) (l : format -> list token) (e : exn) : Prop :=
  forall s, p s = SThrow (mkSt (st_out s ++ l (st_fm s)) (st_fm s)) e.
Lemma fails_then : forall p q l m e, writes p l -> fails q m e -> fails (p ;; q) (fun f => l f ++ m f) e.
Proof. intros p q l m e P Q s. unfold then_. rewrite P, Q. cbn [st_out st_fm]. rewrite app_assoc. reflexivity. Qed.
Lemma fails_first : forall p q l e, fails p l e -> fails (p ;; q) l e.
Proof. intros p q l e P s. unfold then_. rewrite P. reflexivity. Qed.
(** printing a longer FTD throws after the seventh disk *)
Lemma ftd_throws : forall h ps, Forall disk_small h -> (8 <= List.length h)%nat ->
  exists l, fails (print_ftd (ftd_made h, ps)) l (EOutOfRange "vector::at").
Proof.
  intros h ps S N.
  assert (R : forall s, all_of (ftd_line (ftd_made h)) (UtilModel.indices (ftd_getNLayers (ftd_made h))) s =
     SThrow (mkSt (st_out s ++ map (fun a => Text (line_text (ftd_row a))) (firstn 7 h)) (st_fm s)) (EOutOfRange "vector::at")).
  { intros s. rewrite made_n. unfold UtilModel.indices. rewrite Nat2Z.id.
    replace (List.length h) with (List.length (firstn 7 h) + Datatypes.S (List.length h - 8))%nat by (rewrite firstn_length; lia).
    rewrite seq_app, map_app, all_of_app. unfold then_. rewrite (rows_from _ (firstn 7 h) _ (fun a => line_text (ftd_row a)) 0).
    - cbn [plus]. replace (List.length (firstn 7 h)) with 7%nat by (rewrite firstn_length; lia). cbn [seq map all_of].
      unfold then_. rewrite ftd_line_throws; [reflexivity|]. unfold code_disk. rewrite equiv_made.
      change (6 <? Z.of_nat 7)%Z with true. cbv iota. apply nthZ_out. lia.
    - intros i a E t. assert (I7 : (i < List.length (firstn 7 h))%nat) by (apply nth_error_Some; congruence). rewrite firstn_length in I7.
      assert (E' : nth_error h i = Some a).
      { rewrite <- (firstn_skipn 7 h), nth_error_app1 by (rewrite firstn_length; lia). exact E. }
      cbn [plus]. rewrite (ftd_line_row h _ a) by (rewrite code_disk_below by lia; exact E').
      rewrite Forall_forall in S. rewrite writes_sprintf; [reflexivity|]. apply ftd_row_fits, S. now apply nth_error_In in E'. }
  destruct (params_quiet ps) as [lp W].
  eexists. unfold print_ftd.
  repeat (eapply fails_then; [first [apply writes_text | apply writes_endl | apply writes_int | exact W]|]).
  apply fails_first with (l := fun _ => map (fun a => Text (line_text (ftd_row a))) (firstn 7 h)). exact R.
Qed.
Lemma ftd_quiet : forall o h, ftd_small o h -> (List.length h <= 7)%nat -> quiet (print_ftd o).
Proof.
  intros [p ps] h [E S] N. cbn [fst] in E. subst p. destruct (params_quiet ps) as [lp W].
  destruct (ftd_written h ps lp S N W) as [l [Wl _]]. now exists l.
Qed.
