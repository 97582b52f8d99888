(** Proofs about rectangular pad layouts in files (C35). *)
From Coq Require Import ZArith List String Ascii Bool Reals Lia Lra.
From Flocq Require Import Core.Raux.
From Verif Require Import Base BaseProofs RBase BitProofs ListExtra XmlModel XmlSpec XmlProofs NumModel NumSpec NumProofs NumProofs2 HxModel HxSpec HxProofs
  RectModel RectSpec RectProofs PadXmlModel PadXmlSpec PadXmlProofs.
Import ListNotations.
Open Scope list_scope.
Open Scope R_scope.

(** ** The rows come in groups *)
Definition flat (g : list (Z * srow)) : list srow := List.concat (map (fun p => repeat (snd p) (Z.to_nat (fst p))) g).
Definition grouped (l : rect) (E : list srow) : Prop :=
  exists g, _nRows l = map fst g /\ E = flat g /\ Forall (fun p => (0 < fst p)%Z) g.

Lemma flat_app : forall g g', flat (g ++ g') = flat g ++ flat g'.
Proof. intros. unfold flat. rewrite map_app, concat_app. reflexivity. Qed.
Lemma flat_singles : forall T, flat (map (pair 1%Z) T) = T.
Proof. induction T as [|s T IH]; [reflexivity|]. unfold flat in *. cbn [map List.concat fst snd]. rewrite IH. reflexivity. Qed.

Lemma push_nRows : forall n row l, _nRows (push_rows n row l) = _nRows l.
Proof. induction n; intros; cbn [push_rows]; [reflexivity|]. rewrite IHn. reflexivity. Qed.
Lemma addRow_nRows : forall l n np a b c d e l' u, addRow l n np a b c d e = SOk l' u -> _nRows l' = _nRows l ++ [n].
Proof.
  intros l n np a b c d e l' u H. unfold addRow in H. destruct (negb _); [discriminate|]. destruct (Rltb _ _); [discriminate|].
  cbv zeta in H. destruct (Rltb _ _); [discriminate|]. injection H as <- _. cbn [_nRows]. rewrite push_nRows. reflexivity.
Qed.
Lemma addRow_refused : forall l n np a b c d e l' x, addRow l n np a b c d e = SThrow l' x -> _nRows l' = _nRows l.
Proof.
  intros l n np a b c d e l' x H. unfold addRow in H. destruct (negb _); [discriminate|]. destruct (Rltb _ _); [injection H as <- _; reflexivity|].
  cbv zeta in H. destruct (Rltb _ _); [injection H as <- _; reflexivity | discriminate].
Qed.
Lemma repeat_snoc : forall A (x : A) n, repeat x n ++ [x] = x :: repeat x n.
Proof. induction n; cbn; [reflexivity|]. rewrite IHn. reflexivity. Qed.
Lemma inner_nRows : forall n j l l' u, repeat_inner n j l = SOk l' u -> _nRows l' = _nRows l ++ repeat 1%Z n.
Proof.
  induction n as [|n IH]; intros j l l' u H; cbn [repeat_inner] in H.
  - injection H as <- _. cbn. rewrite app_nil_r. reflexivity.
  - destruct (nth_error (_rows l) j); [|discriminate]. destruct (addRow l 1 _ _ _ _ _ _) as [k x| |] eqn:A; try discriminate.
    apply IH in H. rewrite H, (addRow_nRows _ _ _ _ _ _ _ _ _ _ A), <- app_assoc. reflexivity.
Qed.
Lemma outer_nRows : forall m n l l' u, repeat_outer m n l = SOk l' u -> _nRows l' = _nRows l ++ repeat 1%Z (m * n).
Proof.
  induction m as [|m IH]; intros n l l' u H; cbn [repeat_outer] in H.
  - injection H as <- _. cbn. rewrite app_nil_r. reflexivity.
  - destruct (repeat_inner n 0 l) as [k x| |] eqn:A; try discriminate. apply IH in H. rewrite H, (inner_nRows _ _ _ _ _ A), <- app_assoc, <- repeat_app. reflexivity.
Qed.
Lemma repeat_nRows : forall l c l' u, repeatRows l c = SOk l' u ->
  exists k, _nRows l' = _nRows l ++ repeat 1%Z (k * List.length (_rows l)) /\ ((0 <? _repeatRows l)%Z = false -> k = Z.to_nat (uint32 (c - 1))).
Proof.
  intros l c l' u H. unfold repeatRows in H. destruct (0 <? _repeatRows l)%Z eqn:P.
  - injection H as <- _. exists 0%nat. cbn. rewrite app_nil_r. split; [reflexivity | discriminate].
  - cbv zeta in H. apply outer_nRows in H. cbn [_nRows _rows] in H. eexists. split; [exact H | reflexivity].
Qed.

Lemma grouped_singles : forall l l' E T, grouped l E -> _nRows l' = _nRows l ++ repeat 1%Z (List.length T) -> grouped l' (E ++ T).
Proof.
  intros l l' E T [g [G1 [G2 G3]]] H. exists (g ++ map (pair 1%Z) T). split; [|split].
  - rewrite H, G1, map_app, map_map. f_equal. clear. induction T; cbn; [reflexivity|]. rewrite IHT. reflexivity.
  - rewrite flat_app, flat_singles, G2. reflexivity.
  - apply Forall_app. split; [exact G3|]. apply Forall_forall. intros p I. apply in_map_iff in I. destruct I as [s [<- _]]. cbn. lia.
Qed.

Lemma grouped_call : forall x0 x1 y0 E ex rp l c l', rep x0 x1 y0 E ex rp l -> legal_call c -> grouped l E -> do_call l c = Some l' ->
  grouped l' (fst (expect1 x0 x1 (E, rp) c)).
Proof.
  intros x0 x1 y0 E ex rp l c l' HR HL HG HD. destruct c as [a|n|r]; cbn [do_call expect1 fst snd] in *.
  - pose proof (addRow_rep _ _ _ _ _ _ _ _ HR HL) as HA. cbv zeta in HA.
    destruct HA as [(Hw&Hh&k&Hl&HR')|[(Hw&Hh&k&e&Hl&HR')|(Hw&e&Hl)]]; rewrite Hl in HD; injection HD as <-;
      (destruct (width_fits_dec x0 x1 (srow_of a)); try tauto);
      (try (destruct (height_fits_dec (srow_of a)); try tauto)); cbn [fst].
    + destruct HG as [g [G1 [G2 G3]]]. exists (g ++ [(a_nRow a, srow_of a)]). split; [|split].
      * rewrite (addRow_nRows _ _ _ _ _ _ _ _ _ _ Hl), G1, map_app. reflexivity.
      * rewrite flat_app, G2. unfold flat at 3. cbn [map List.concat fst snd]. rewrite app_nil_r. reflexivity.
      * apply Forall_app. split; [exact G3|]. constructor; [apply HL | constructor].
    + destruct HG as [g [G1 [G2 G3]]]. exists g. rewrite (addRow_refused _ _ _ _ _ _ _ _ _ _ Hl). auto.
  - cbn in HL. destruct rp.
    + unfold repeatRows in HD. rewrite (rep_rpt _ _ _ _ _ _ _ HR) in HD. injection HD as <-. exact HG.
    + destruct (repeatRows_rep _ _ _ _ _ _ n HR) as [k [Hl [HR' _]]]; [lia|]. rewrite Hl in HD. injection HD as <-.
      destruct (repeat_nRows _ _ _ _ Hl) as [m [HN Hm]]. specialize (Hm (rep_rpt _ _ _ _ _ _ _ HR)).
      rewrite uint32_small in Hm by lia. cbn [fst].
      replace (Z.to_nat n) with (S (Z.to_nat (n - 1))) by lia. cbn [repeat List.concat].
      apply (grouped_singles l); [exact HG|]. rewrite HN, (rows_len _ _ _ _ _ _ _ HR). f_equal. f_equal. subst m.
      generalize (Z.to_nat (n - 1)). clear. induction n; cbn; [reflexivity|]. rewrite app_length, <- IHn. reflexivity.
  - destruct (getPadsInRow l r) as [k v| |] eqn:Q; try discriminate; injection HD as <-.
    + unfold getPadsInRow in Q. destruct HG as [g [G1 [G2 G3]]]. exists g. split; [|auto].
      destruct (nthZ (_padIndices l) r) as [[w|]|]; try (injection Q as <- _; exact G1).
      destruct (nthZ (_rows l) r); [|injection Q as <- _; exact G1].
      destruct (indices_from l r _ 0); [injection Q as <- _; exact G1 | injection Q as <- _; exact G1 | discriminate].
    + destruct (getPadsInRow_rep _ _ _ _ _ _ _ r HR) as [k' [v [Hl _]]]. congruence.
Qed.

Lemma grouped_calls : forall x0 x1 y0 h E ex rp l l', rep x0 x1 y0 E ex rp l -> Forall legal_call h -> grouped l E -> do_calls l h = Some l' ->
  grouped l' (fst (fold_left (expect1 x0 x1) h (E, rp))).
Proof.
  intros x0 x1 y0. induction h as [|c t IH]; intros E ex rp l l' HR HL HG HD; cbn [do_calls fold_left] in *.
  - injection HD as <-. exact HG.
  - inversion HL; subst. destruct (do_call_rep _ _ _ _ _ _ _ _ HR H1) as [k [Hl HR']]. rewrite Hl in HD.
    pose proof (grouped_call _ _ _ _ _ _ _ _ _ HR H1 HG Hl) as HG'.
    rewrite (surjective_pairing (expect1 x0 x1 (E, rp) c)). eapply IH; eassumption.
Qed.

Lemma built_grouped : forall x0 x1 y0 h l, built x0 x1 y0 h l -> grouped l (expected_rows x0 x1 h).
Proof.
  intros x0 x1 y0 h l [HL HD]. unfold expected_rows, expected. eapply grouped_calls; [apply rep_new | exact HL | | exact HD].
  exists []. repeat split. constructor.
Qed.

(** ** One row element *)
Definition rect_row_pairs (n : Z) (r : Row) : list (string * string) :=
  ((if (1 <? n)%Z then [("repeat"%string, print_int n)] else []) ++
     [("nPad", print_int (NPad r)); ("padWidth", print_double (PadWidth r)); ("padHeight", print_double (PadHeight r));
      ("rowHeight", print_double (Height r)); ("leftOffset", print_double (LeftOffset r));
      ("rightOffset", print_double (RightOffset r))]%string).
Lemma rect_row_pairs_ok : forall n r, pairs_ok (rect_row_pairs n r).
Proof. intros n r. unfold rect_row_pairs. destruct (1 <? n)%Z; pairs. Qed.
Lemma rect_row_writable : forall n r, writable (rect_row_elem n r).
Proof. intros n r. apply elem_writable; [reflexivity | apply (rect_row_pairs_ok n r) | intros x [] | exact I]. Qed.

(** what is read for a row described by the element *)
Definition read_back (n : Z) (r : Row) : add_args :=
  mkAdd n (NPad r) (atof (print_double (PadWidth r))) (atof (print_double (PadHeight r))) (atof (print_double (Height r)))
        (atof (print_double (LeftOffset r))) (atof (print_double (RightOffset r))).
Lemma read_elem : forall l n r, (0 < n < 2147483648)%Z -> is_int (NPad r) -> rect_read_row l (rect_row_elem n r) =
  let a := read_back n r in
  outcome (addRow l (a_nRow a) (a_nPad a) (a_padWidth a) (a_padHeight a) (a_rowHeight a) (a_left a) (a_right a)).
Proof.
  intros l n r N K. unfold rect_row_elem. fold (rect_row_pairs n r). pose proof (rect_row_pairs_ok n r) as P. unfold rect_read_row.
  assert (RP : get_opt_int (XElem "row" (attrs_of (rect_row_pairs n r)) []) "repeat" "1" = Ok n).
  { unfold get_opt_int, getOptionalXMLAttribute. unfold rect_row_pairs in *. destruct (Z.ltb_spec 1 n) as [G|G].
    - rewrite (get_attr _ _ _ "repeat" (print_int n) P) by (cbn; tauto). apply int_kept. unfold is_int. lia.
    - rewrite (no_attr _ _ _ "repeat") by (exact P || reflexivity). change (atoi "1") with (Ok 1%Z). f_equal. lia. }
  rewrite RP. cbn [rbind].
  assert (IN : forall p, In p [("nPad", print_int (NPad r)); ("padWidth", print_double (PadWidth r)); ("padHeight", print_double (PadHeight r));
      ("rowHeight", print_double (Height r)); ("leftOffset", print_double (LeftOffset r)); ("rightOffset", print_double (RightOffset r))]%string ->
      In p (rect_row_pairs n r)) by (intros p I; apply in_or_app; right; exact I).
  rewrite (get_int_attr _ _ _ "nPad" (NPad r) P) by (exact K || (apply IN; cbn; tauto)). cbn [rbind].
  rewrite (get_double_attr _ _ _ "padWidth" (PadWidth r) P) by (apply IN; cbn; tauto). cbn [rbind].
  rewrite (get_double_attr _ _ _ "padHeight" (PadHeight r) P) by (apply IN; cbn; tauto). cbn [rbind].
  unfold get_opt_double, getOptionalXMLAttribute.
  rewrite (get_attr _ _ _ "rowHeight" (print_double (Height r)) P) by (apply IN; cbn; tauto).
  rewrite (get_attr _ _ _ "leftOffset" (print_double (LeftOffset r)) P) by (apply IN; cbn; tauto).
  rewrite (get_attr _ _ _ "rightOffset" (print_double (RightOffset r)) P) by (apply IN; cbn; tauto). reflexivity.
Qed.

(** ** All row elements *)
Definition group_elem (x0 x1 : R) (p : Z * srow) : xnode := rect_row_elem (fst p) (row_at x0 x1 0 (snd p)).
Lemma row_elem_at : forall n x0 x1 b s, rect_row_elem n (row_at x0 x1 b s) = rect_row_elem n (row_at x0 x1 0 s).
Proof. reflexivity. Qed.

Lemma flat_length : forall g, Forall (fun p => (0 < fst p)%Z) g -> Z.of_nat (List.length (flat g)) = fold_right Z.add 0%Z (map fst g).
Proof.
  induction g as [|p g IH]; intros F; [reflexivity|]. inversion F; subst. unfold flat in *. cbn [map List.concat fold_right].
  rewrite app_length, repeat_length, Nat2Z.inj_add, IH by assumption. lia.
Qed.

Lemma rect_elems : forall x0 x1 y0 g1 g0 g2, Forall (fun p => (0 < fst p)%Z) g1 -> (Z.of_nat (List.length (flat g1)) < 2147483648)%Z ->
  rect_row_elems (rows_of x0 x1 y0 (flat (g0 ++ g1 ++ g2))) (Z.of_nat (List.length (flat g0))) (map fst g1) =
  Ok (map (group_elem x0 x1) g1).
Proof.
  intros x0 x1 y0. induction g1 as [|[n s] g1 IH]; intros g0 g2 F L; [reflexivity|].
  inversion F as [|? ? F1 F2]; subst. cbn [fst] in F1.
  assert (LN : (n + Z.of_nat (List.length (flat g1)) < 2147483648)%Z).
  { change (flat ((n, s) :: g1)) with (repeat s (Z.to_nat n) ++ flat g1) in L. rewrite app_length, repeat_length in L. lia. }
  cbn [map fst rect_row_elems]. rewrite nthZ_of_nat, rows_of_nth, flat_app, nth_error_app2, Nat.sub_diag by lia.
  change (flat (((n, s) :: g1) ++ g2)) with (repeat s (Z.to_nat n) ++ flat (g1 ++ g2)).
  destruct (Z.to_nat n) as [|k] eqn:EK; [lia|]. cbn [repeat app nth_error option_map].
  rewrite int32_small by (unfold int_ok; lia). rewrite row_elem_at.
  specialize (IH (g0 ++ [(n, s)]) g2 F2 ltac:(lia)).
  replace ((g0 ++ [(n, s)]) ++ g1 ++ g2) with (g0 ++ ((n, s) :: g1) ++ g2) in IH by (rewrite <- app_assoc; reflexivity).
  assert (EL : Z.of_nat (List.length (flat (g0 ++ [(n, s)]))) = (Z.of_nat (List.length (flat g0)) + n)%Z).
  { rewrite flat_app, app_length. change (flat [(n, s)]) with (repeat s (Z.to_nat n) ++ []). rewrite app_nil_r, repeat_length. lia. }
  rewrite EL in IH. rewrite flat_app in IH. cbn [app] in IH. change (flat ((n, s) :: g1 ++ g2)) with (repeat s (Z.to_nat n) ++ flat (g1 ++ g2)) in IH.
  rewrite EK in IH. cbn [repeat app] in IH. rewrite IH. reflexivity.
Qed.

(** all the numbers of a row come back *)
Definition kept_srow (s : srow) : Prop :=
  is_int (s_n s) /\ kept (s_padW s) /\ kept (s_padH s) /\ kept (s_h s) /\ kept (s_left s) /\ kept (s_right s).

Lemma read_groups : forall x0 x1 y0 g E rp l, rep x0 x1 y0 E 0 rp l -> Forall (fun p => (0 < fst p < 2147483648)%Z) g ->
  Forall (fun p => kept_srow (snd p) /\ good x0 x1 (snd p)) g ->
  exists l', rfold rect_read_row (map (group_elem x0 x1) g) l = Ok l' /\ rep x0 x1 y0 (E ++ flat g) 0 rp l'.
Proof.
  intros x0 x1 y0. induction g as [|[n s] g IH]; intros E rp l HR F1 F2.
  - exists l. cbn. rewrite app_nil_r. auto.
  - inversion F1 as [|? ? N F1']; subst. inversion F2 as [|? ? [K G] F2']; subst. cbn [fst snd] in *.
    destruct K as [K0 [K1 [K2 [K3 [K4 K5]]]]].
    cbn [map rfold]. unfold group_elem at 1. cbn [fst snd]. rewrite read_elem by (lia || exact K0).
    set (a := mkAdd n (s_n s) (s_padW s) (s_padH s) (s_h s) (s_left s) (s_right s)).
    assert (EA : read_back n (row_at x0 x1 0 s) = a).
    { unfold read_back, row_at, a. cbn [NPad PadWidth PadHeight Height LeftOffset RightOffset].
      unfold kept in *. rewrite K1, K2, K3, K4, K5. reflexivity. }
    rewrite EA. cbv zeta.
    assert (ES : srow_of a = s) by (transitivity (srow_of (args_of s)); [reflexivity | apply (args_of_srow x0 x1 s G)]).
    assert (LG : legal_call (CAdd a)).
    { destruct G as (H1&H2&H3&H4&H5&H6&_). unfold legal_call, a. cbn. repeat split; try assumption; lia. }
    pose proof (addRow_rep _ _ _ _ _ _ _ _ HR LG) as HA. cbv zeta in HA. rewrite ES in HA.
    destruct G as (H1&H2&H3&H4&H5&H6&H7&H8).
    destruct HA as [(_&_&l1&Hl&HR')|[(_&Hn&_)|(Hn&_)]]; [|tauto|tauto]. rewrite Hl. cbn [outcome rbind].
    destruct (IH _ _ _ HR' F1' F2') as [l' [B HB]]. exists l'. split; [exact B|].
    change (flat ((n, s) :: g)) with (repeat s (Z.to_nat n) ++ flat g). rewrite app_assoc. exact HB.
Qed.

(** ** The whole layout *)
Lemma firstn_flat : forall g k, Forall (fun p => (0 < fst p)%Z) g ->
  flat (firstn k g) = firstn (Z.to_nat (sum_first k (map fst g))) (flat g) /\
  Z.of_nat (List.length (flat (firstn k g))) = sum_first k (map fst g).
Proof.
  intros g k F.
  assert (L : Z.of_nat (List.length (flat (firstn k g))) = sum_first k (map fst g)).
  { unfold sum_first. rewrite firstn_map. apply flat_length. apply Forall_forall. intros p I. rewrite Forall_forall in F. apply F.
    rewrite <- (firstn_skipn k g). apply in_or_app. left. exact I. }
  split; [|exact L]. rewrite <- L, Nat2Z.id. rewrite <- (firstn_skipn k g) at 3. rewrite flat_app, firstn_app, Nat.sub_diag, firstn_all, firstn_O, app_nil_r. reflexivity.
Qed.
Lemma flat_fewer : forall g k, Forall (fun p => (0 < fst p)%Z) g -> (k < List.length g)%nat ->
  (List.length (flat (firstn k g)) < List.length (flat g))%nat.
Proof.
  intros g k F L. rewrite <- (firstn_skipn k g) at 2. rewrite flat_app, app_length.
  destruct (skipn k g) as [|p t] eqn:E; [apply (f_equal (@List.length _)) in E; rewrite skipn_length in E; cbn in E; lia|].
  assert (P : (0 < fst p)%Z).
  { rewrite Forall_forall in F. apply F. rewrite <- (firstn_skipn k g), E. apply in_or_app. right. left. reflexivity. }
  unfold flat at 3. cbn [map List.concat]. rewrite app_length, repeat_length. lia.
Qed.
Lemma rows_of_firstn : forall x0 x1 E b n, rows_of x0 x1 b (firstn n E) = firstn n (rows_of x0 x1 b E).
Proof. intros x0 x1. induction E as [|s E IH]; intros b [|n]; cbn; try reflexivity. rewrite IH. reflexivity. Qed.
Lemma rows_of_in : forall x0 x1 E b s, In s E -> exists c, In (row_at x0 x1 c s) (rows_of x0 x1 b E).
Proof.
  intros x0 x1. induction E as [|e E IH]; intros b s I; [destruct I|]. destruct I as [->|I].
  - exists b. left. reflexivity.
  - destruct (IH (b + s_h e) s I) as [c C]. exists c. right. exact C.
Qed.

(** the number of row elements that are written *)
Definition written (l : rect) : nat :=
  Z.to_nat (if (1 <? getRepeatRowCount l)%Z then Z.quot (Z.of_nat (List.length (_nRows l))) (getRepeatRowCount l) else Z.of_nat (List.length (_nRows l))).

Definition rect_pairs (l : rect) : list (string * string) :=
  ([("type", "RectangularPadRowLayout"); ("xMin", print_double (ext0 l)); ("xMax", print_double (ext1 l));
    ("yMin", print_double (ext2 l))]%string ++
   (if (1 <? getRepeatRowCount l)%Z then [("RepeatRows"%string, print_double (IZR (getRepeatRowCount l)))] else [])).
Lemma rect_pairs_ok : forall l, pairs_ok (rect_pairs l).
Proof. intros l. unfold rect_pairs. destruct (1 <? getRepeatRowCount l)%Z; pairs. Qed.

Lemma rect_saved : forall x0 x1 y0 E ex rp l g, rep x0 x1 y0 E ex rp l -> _nRows l = map fst g -> E = flat g -> Forall (fun p => (0 < fst p)%Z) g ->
  (getNRows l < 2147483648)%Z ->
  rect_toXML l = Ok (XElem "PadRowLayout2D" (attrs_of (rect_pairs l)) (map (group_elem x0 x1) (firstn (written l) g))).
Proof.
  intros x0 x1 y0 E ex rp l g HR G1 G2 G3 L. unfold rect_toXML. cbv zeta. fold (rect_pairs l). fold (written l).
  rewrite (rep_rows _ _ _ _ _ _ _ HR), G1, firstn_map, G2.
  pose proof (rect_elems x0 x1 y0 (firstn (written l) g) [] (skipn (written l) g)) as HE. cbn [app] in HE. rewrite firstn_skipn in HE.
  change (Z.of_nat (List.length (flat []))) with 0%Z in HE. rewrite HE; [reflexivity | |].
  - apply Forall_forall. intros p I. rewrite Forall_forall in G3. apply G3. rewrite <- (firstn_skipn (written l) g). apply in_or_app. left. exact I.
  - unfold getNRows in L. rewrite (rows_len _ _ _ _ _ _ _ HR), G2, <- (firstn_skipn (written l) g), flat_app, app_length in L. lia.
Qed.

Lemma rect_file : forall n x0 x1 ps g, pairs_ok ps -> xml_nameb n = true ->
  via_file (XElem n (attrs_of ps) (map (group_elem x0 x1) g)) = Ok (XElem n (attrs_of ps) (map (group_elem x0 x1) g)).
Proof.
  intros n x0 x1 ps g P N. apply via_writable; [|reflexivity]. apply elem_writable; [exact N | exact P | |].
  - intros x I. apply in_map_iff in I. destruct I as [p [<- _]]. apply rect_row_writable.
  - apply elements_no_text. intros x I. apply in_map_iff in I. destruct I as [p [<- _]]. reflexivity.
Qed.

Lemma rect_loaded : forall x0 x1 l g, ext0 l = x0 -> ext1 l = x1 -> kept (ext0 l) -> kept (ext1 l) -> kept (ext2 l) ->
  rect_fromXML (XElem "PadRowLayout2D" (attrs_of (rect_pairs l)) (map (group_elem x0 x1) g)) =
  rbind (rfold rect_read_row (map (group_elem x0 x1) g) (new_rect x0 x1 (ext2 l))) (fun k => outcome (repeatRows k 1)).
Proof.
  intros x0 x1 l g E0 E1 K0 K1 K2. pose proof (rect_pairs_ok l) as P. unfold rect_fromXML.
  assert (IN : forall p, In p [("type", "RectangularPadRowLayout"); ("xMin", print_double (ext0 l)); ("xMax", print_double (ext1 l));
    ("yMin", print_double (ext2 l))]%string -> In p (rect_pairs l)) by (intros p I; apply in_or_app; left; exact I).
  rewrite (get_double_attr _ _ _ "xMin" (ext0 l) P) by (apply IN; cbn; tauto). cbn [rbind].
  rewrite (get_double_attr _ _ _ "xMax" (ext1 l) P) by (apply IN; cbn; tauto). cbn [rbind].
  rewrite (get_double_attr _ _ _ "yMin" (ext2 l) P) by (apply IN; cbn; tauto). cbn [rbind].
  unfold get_opt_int, getOptionalXMLAttribute. rewrite no_attr.
  2: exact P. 2: unfold rect_pairs; destruct (1 <? getRepeatRowCount l)%Z; reflexivity.
  change (atoi "1") with (Ok 1%Z). cbn [rbind]. unfold IterateChildren. cbn [children]. rewrite filter_all.
  - unfold kept in *. rewrite K0, K1, K2, E0, E1. reflexivity.
  - intros x I. apply in_map_iff in I. destruct I as [p [<- _]]. reflexivity.
Qed.

Lemma rect_reloaded : forall x0 x1 y0 h l, built x0 x1 y0 h l -> kept x0 -> kept x1 -> kept y0 ->
  (forall r, In r (_rows l) -> kept_row r) -> (getNRows l < 2147483648)%Z ->
  exists l', reload rect_toXML rect_fromXML l = Ok l' /\ getRepeatRowCount l' = 1%Z /\
    rep x0 x1 y0 (firstn (Z.to_nat (sum_first (written l) (_nRows l))) (expected_rows x0 x1 h)) 0 true l' /\
    Z.of_nat (List.length (_rows l')) = sum_first (written l) (_nRows l) /\
    ((written l < List.length (_nRows l))%nat -> (getNRows l' < getNRows l)%Z).
Proof.
  intros x0 x1 y0 h l HB K0 K1 K2 KR L. pose proof (built_rep _ _ _ _ _ HB) as HR. destruct (built_grouped _ _ _ _ _ HB) as [g [G1 [G2 G3]]].
  set (E := expected_rows x0 x1 h) in *.
  destruct (firstn_flat g (written l) G3) as [FF FL].
  assert (IN : forall p, In p (firstn (written l) g) -> In p g).
  { intros p I. rewrite <- (firstn_skipn (written l) g). apply in_or_app. left. exact I. }
  assert (IF : forall p, In p g -> In (snd p) E).
  { intros p I. rewrite G2. unfold flat. apply in_concat. exists (repeat (snd p) (Z.to_nat (fst p))). split.
    - apply in_map_iff. exists p. split; [reflexivity | exact I].
    - rewrite Forall_forall in G3. specialize (G3 p I). destruct (Z.to_nat (fst p)) eqn:Q; [lia|]. left. reflexivity. }
  assert (SM : forall p, In p g -> (0 < fst p < 2147483648)%Z).
  { intros p I. rewrite Forall_forall in G3. specialize (G3 p I). split; [exact G3|].
    unfold getNRows in L. rewrite (rows_len _ _ _ _ _ _ _ HR), G2 in L. apply in_split in I. destruct I as [g1 [g2 ->]].
    rewrite flat_app, app_length in L. change (flat (p :: g2)) with (repeat (snd p) (Z.to_nat (fst p)) ++ flat g2) in L.
    rewrite app_length, repeat_length in L. lia. }
  destruct (read_groups x0 x1 y0 (firstn (written l) g) [] false (new_rect x0 x1 y0) (rep_new x0 x1 y0)) as [l1 [B HR1]].
  { apply Forall_forall. intros p I. apply SM, IN, I. }
  { apply Forall_forall. intros p I. apply IN, IF in I. split.
    - destruct (rows_of_in x0 x1 E y0 (snd p) I) as [c C]. rewrite <- (rep_rows _ _ _ _ _ _ _ HR) in C. apply KR in C. exact C.
    - pose proof (rep_good _ _ _ _ _ _ _ HR) as GD. rewrite Forall_forall in GD. apply GD. exact I. }
  cbn [app] in HR1. destruct (repeatRows_rep _ _ _ _ _ _ 1 HR1 ltac:(lia)) as [l' [HP [HR' HC]]].
  change (Z.to_nat (uint32 (1 - 1))) with 0%nat in HR'. cbn [repeat List.concat] in HR'. rewrite app_nil_r in HR'.
  change (0 <? 1)%Z with true in HR'.
  exists l'. split; [|split; [exact HC|split; [|split]]].
  - unfold reload. rewrite (rect_saved _ _ _ _ _ _ _ _ HR G1 G2 G3 L). cbn [rbind].
    rewrite (rect_file "PadRowLayout2D" x0 x1 (rect_pairs l) _ (rect_pairs_ok l) eq_refl). cbn [rbind].
    pose proof (rep_e0 _ _ _ _ _ _ _ HR) as E0. pose proof (rep_e1 _ _ _ _ _ _ _ HR) as E1. pose proof (rep_e2 _ _ _ _ _ _ _ HR) as E2.
    rewrite (rect_loaded x0 x1 l _ E0 E1) by (rewrite ?E0, ?E1, ?E2; assumption). rewrite E2, B. cbn [rbind]. rewrite HP. reflexivity.
  - rewrite G1, G2, <- FF. exact HR'.
  - rewrite (rows_len _ _ _ _ _ _ _ HR'), FL, G1. reflexivity.
  - intros W. unfold getNRows. rewrite (rows_len _ _ _ _ _ _ _ HR'), (rows_len _ _ _ _ _ _ _ HR), G2. apply inj_lt.
    apply flat_fewer; [exact G3|]. rewrite G1, map_length in W. exact W.
Qed.

Lemma rep_same : forall x0 x1 y0 E e e' rp rp' l l', rep x0 x1 y0 E e rp l -> rep x0 x1 y0 E e' rp' l' -> same_pads l l'.
Proof.
  intros x0 x1 y0 E e e' rp rp' l l' H H'.
  assert (R : _rows l' = _rows l) by (rewrite (rep_rows _ _ _ _ _ _ _ H), (rep_rows _ _ _ _ _ _ _ H'); reflexivity).
  assert (E0 : ext0 l' = ext0 l) by (rewrite (rep_e0 _ _ _ _ _ _ _ H), (rep_e0 _ _ _ _ _ _ _ H'); reflexivity).
  assert (E1 : ext1 l' = ext1 l) by (rewrite (rep_e1 _ _ _ _ _ _ _ H), (rep_e1 _ _ _ _ _ _ _ H'); reflexivity).
  assert (E2 : ext2 l' = ext2 l) by (rewrite (rep_e2 _ _ _ _ _ _ _ H), (rep_e2 _ _ _ _ _ _ _ H'); reflexivity).
  assert (E3 : ext3 l' = ext3 l) by (rewrite (rep_e3 _ _ _ _ _ _ _ H), (rep_e3 _ _ _ _ _ _ _ H'); reflexivity).
  assert (P : forall r p, getPadIndex l' r p = getPadIndex l r p) by (intros; unfold getPadIndex; rewrite R; reflexivity).
  assert (N : forall i, getRowNumber l' i = getRowNumber l i) by (intros; unfold getRowNumber; rewrite R; reflexivity).
  assert (O : forall i, row_of l' i = row_of l i) by (intros; unfold row_of; rewrite N, R; reflexivity).
  assert (S : forall n y k, search_row n l' y k = search_row n l y k).
  { induction n as [|n IH]; intros y k; [reflexivity|]. cbn [search_row]. rewrite R, E2, E3. destruct (nthZ (_rows l) k); [|reflexivity].
    cbv zeta. rewrite IH. reflexivity. }
  assert (PH : forall i, getPadHeight l' i = getPadHeight l i) by (intros; unfold getPadHeight; rewrite O; reflexivity).
  assert (PW : forall i, getPadWidth l' i = getPadWidth l i) by (intros; unfold getPadWidth; rewrite O; reflexivity).
  assert (PC : forall i, getPadCenter l' i = getPadCenter l i) by (intros; unfold getPadCenter; rewrite O, E0; reflexivity).
  unfold same_pads. repeat (split; [|]).
  - unfold getPlaneExtent. rewrite E0, E1, E2, E3. reflexivity.
  - unfold getNRows. rewrite R. reflexivity.
  - intros r. unfold getRowHeight. rewrite R. reflexivity.
  - exact N.
  - exact P.
  - exact PH.
  - exact PW.
  - intros i. unfold getPadPitch. rewrite O. reflexivity.
  - exact PC.
  - intros i. unfold getRightNeighbour. rewrite N. destruct (getRowNumber l i); [|reflexivity|reflexivity]. cbn [rbind]. rewrite R.
    destruct (at_ (_rows l) a); [|reflexivity|reflexivity]. cbn [rbind]. rewrite P. reflexivity.
  - intros i. unfold getLeftNeighbour. rewrite N. destruct (getRowNumber l i); [|reflexivity|reflexivity]. cbn [rbind]. rewrite P. reflexivity.
  - intros n x y. unfold getNearestPad. cbv zeta. rewrite E0, E1, E2, E3, R, S. destruct (Reqb (ext3 l - ext2 l) 0); [reflexivity|].
    match goal with |- match ?q with _ => _ end = _ => destruct q as [[rn| |]|] end; try reflexivity.
    unfold sub. rewrite ?R. destruct (nthZ (_rows l) rn); [|reflexivity]. cbn [rbind]. unfold pad_in_row. rewrite E0, E1.
    match goal with |- Some (rbind ?q _) = _ => destruct q end; try reflexivity. cbn [rbind]. rewrite P. reflexivity.
  - intros x y i. unfold isInsidePad. rewrite O, E0. reflexivity.
  - intros x y i. unfold getDistanceToPad. rewrite PC, PH, PW. reflexivity.
Qed.

Lemma rect_survives : forall x0 x1 y0 h l, built x0 x1 y0 h l -> (getRepeatRowCount l <= 1)%Z -> kept x0 -> kept x1 -> kept y0 ->
  (forall r, In r (_rows l) -> kept_row r) -> (getNRows l < 2147483648)%Z ->
  exists l', reload rect_toXML rect_fromXML l = Ok l' /\ same_pads l l' /\
    getNPads l' = (getNPads l - refused_pads x0 x1 h)%Z /\ getRepeatRowCount l' = 1%Z.
Proof.
  intros x0 x1 y0 h l HB C K0 K1 K2 KR L. destruct (rect_reloaded _ _ _ _ _ HB K0 K1 K2 KR L) as [l' [RL [RC [HR' [LN _]]]]].
  pose proof (built_rep _ _ _ _ _ HB) as HR. destruct (built_grouped _ _ _ _ _ HB) as [g [G1 [G2 G3]]].
  assert (W : written l = List.length g).
  { unfold written. destruct (Z.ltb_spec 1 (getRepeatRowCount l)); [lia|]. rewrite Nat2Z.id, G1, map_length. reflexivity. }
  assert (FA : firstn (Z.to_nat (sum_first (written l) (_nRows l))) (expected_rows x0 x1 h) = expected_rows x0 x1 h).
  { destruct (firstn_flat g (written l) G3) as [FF _]. rewrite G1, G2, <- FF, W, firstn_all. reflexivity. }
  rewrite FA in HR'. exists l'. split; [exact RL|]. split; [eapply rep_same; eassumption|]. split; [|exact RC].
  unfold getNPads. rewrite (rep_npad _ _ _ _ _ _ _ HR), (rep_npad _ _ _ _ _ _ _ HR'). lia.
Qed.

Lemma repeats_lost : forall x0 x1 y0 h l, built x0 x1 y0 h l -> (1 < getRepeatRowCount l)%Z -> (0 < getNRows l)%Z -> kept x0 -> kept x1 -> kept y0 ->
  (forall r, In r (_rows l) -> kept_row r) -> (getNRows l < 2147483648)%Z ->
  exists l', reload rect_toXML rect_fromXML l = Ok l' /\ (getNRows l' < getNRows l)%Z /\
    _rows l' = firstn (Z.to_nat (getNRows l')) (_rows l) /\ getRepeatRowCount l' = 1%Z.
Proof.
  intros x0 x1 y0 h l HB C NR K0 K1 K2 KR L. destruct (rect_reloaded _ _ _ _ _ HB K0 K1 K2 KR L) as [l' [RL [RC [HR' [LN FW]]]]].
  pose proof (built_rep _ _ _ _ _ HB) as HR. destruct (built_grouped _ _ _ _ _ HB) as [g [G1 [G2 G3]]].
  exists l'. split; [exact RL|]. split; [|split; [|exact RC]].
  - apply FW. unfold written. destruct (Z.ltb_spec 1 (getRepeatRowCount l)); [|lia].
    assert (GN : (0 < List.length (_nRows l))%nat).
    { destruct (_nRows l) eqn:Q; [|cbn; lia]. symmetry in G1. apply map_eq_nil in G1. subst g. unfold getNRows in NR. rewrite (rows_len _ _ _ _ _ _ _ HR), G2 in NR. cbn in NR. lia. }
    rewrite Z.quot_div_nonneg by lia. pose proof (Z.div_lt (Z.of_nat (List.length (_nRows l))) (getRepeatRowCount l) ltac:(lia) ltac:(lia)) as D.
    pose proof (Z.div_pos (Z.of_nat (List.length (_nRows l))) (getRepeatRowCount l) ltac:(lia) ltac:(lia)). lia.
  - unfold getNRows. rewrite LN. rewrite (rep_rows _ _ _ _ _ _ _ HR'), (rep_rows _ _ _ _ _ _ _ HR). apply rows_of_firstn.
Qed.

(** ** A file that cannot be loaded *)
(** the double next to one sixth, which is below it *)
Definition sixth : R := 6004799503160661 / 36028797018963968.
Lemma sixth_read : 1666666666 / 10000000000 < sixth <= 1 / 6 /\ 1 < 6 * atof (print_double sixth).
Proof.
  assert (B : 1666666666 / 10000000000 < sixth <= 1 / 6) by (unfold sixth; lra).
  split; [exact B|]. rewrite atof_print.
  assert (T : ten_digits sixth = 1666666667 / 10000000000).
  { rewrite (digits_at _ (-1) 1666666667).
    - change (powerRZ 10 (-1 - 9)) with (/ 10 ^ 10). lra.
    - change (powerRZ 10 (-1)) with (/ 10 ^ 1). change (powerRZ 10 (-1 + 1)) with 1. lra.
    - change (powerRZ 10 (9 - -1)) with (10 ^ 10). unfold sixth. apply Rabs_def1; lra. }
  rewrite T. pose proof (to_double_close (1666666667 / 10000000000) ltac:(apply small_norm; lra)) as C.
  rewrite (Rabs_pos_eq (1666666667 / 10000000000)) in C by lra. apply Rabs_le_inv in C. lra.
Qed.

Lemma cannot_load : exists l, built 0 1 0 [CAdd (mkAdd 1 6 sixth 1 1 0 0)] l /\ getNRows l = 1%Z /\ getNPads l = 6%Z /\
  kept 0 /\ kept 1 /\ exists e, reload rect_toXML rect_fromXML l = Throw e.
Proof.
  destruct sixth_read as [SB SR]. set (a := mkAdd 1 6 sixth 1 1 0 0).
  assert (LG : legal_call (CAdd a)) by (unfold legal_call, a; cbn; repeat split; lia || lra).
  assert (ES : srow_of a = mkS 6 sixth 1 1 0 0).
  { unfold srow_of, asked_height, a. cbn. destruct (Req_EM_T 1 0); [lra | reflexivity]. }
  pose proof (addRow_rep _ _ _ _ _ _ _ _ (rep_new 0 1 0) LG) as HA. cbv zeta in HA. rewrite ES in HA.
  assert (WF : width_fits 0 1 (mkS 6 sixth 1 1 0 0)) by (unfold width_fits; cbn; lra).
  assert (HF : height_fits (mkS 6 sixth 1 1 0 0)) by (unfold height_fits; cbn; lra).
  destruct HA as [(_&_&l&Hl&HR)|[(_&Hn&_)|(Hn&_)]]; [|tauto|tauto]. cbn [app] in HR.
  assert (HB : built 0 1 0 [CAdd a] l).
  { split; [constructor; [exact LG | constructor]|]. cbn [do_calls do_call]. rewrite Hl. reflexivity. }
  assert (W : forall z : Z, (Z.abs z < 10 ^ 10)%Z -> kept (IZR z)) by (intros z Z; apply whole_kept; exact Z).
  assert (K0 : kept 0) by (apply (W 0%Z); reflexivity). assert (K1 : kept 1) by (apply (W 1%Z); reflexivity).
  exists l. split; [exact HB|]. split.
  { unfold getNRows. rewrite (rows_len _ _ _ _ _ _ _ HR). reflexivity. }
  split. { unfold getNPads. rewrite (rep_npad _ _ _ _ _ _ _ HR). reflexivity. }
  split; [exact K0|]. split; [exact K1|].
  assert (NR : _nRows l = map fst [(1%Z, mkS 6 sixth 1 1 0 0)]) by exact (addRow_nRows _ _ _ _ _ _ _ _ _ _ Hl).
  assert (EF : repeat (mkS 6 sixth 1 1 0 0) (Z.to_nat (a_nRow a)) = flat [(1%Z, mkS 6 sixth 1 1 0 0)]) by reflexivity.
  rewrite EF in HR.
  assert (F : Forall (fun p : Z * srow => (0 < fst p)%Z) [(1%Z, mkS 6 sixth 1 1 0 0)]) by (constructor; [cbn; lia | constructor]).
  unfold reload. rewrite (rect_saved _ _ _ _ _ _ _ _ HR NR eq_refl F) by (unfold getNRows; rewrite (rows_len _ _ _ _ _ _ _ HR); reflexivity).
  cbn [rbind]. rewrite (rect_file "PadRowLayout2D" 0 1 (rect_pairs l) _ (rect_pairs_ok l) eq_refl). cbn [rbind].
  pose proof (rep_e0 _ _ _ _ _ _ _ HR) as E0. pose proof (rep_e1 _ _ _ _ _ _ _ HR) as E1. pose proof (rep_e2 _ _ _ _ _ _ _ HR) as E2.
  rewrite (rect_loaded 0 1 l _ E0 E1) by (rewrite ?E0, ?E1, ?E2; assumption).
  assert (WR : written l = 1%nat).
  { unfold written. replace (getRepeatRowCount l) with 0%Z; [rewrite NR; reflexivity|].
    unfold addRow in Hl. destruct (negb _); [discriminate|]. destruct (Rltb _ _); [discriminate|]. cbv zeta in Hl.
    destruct (Rltb _ _); [discriminate|]. injection Hl as <-. reflexivity. }
  rewrite WR. cbn [firstn map rfold]. unfold group_elem. cbn [fst snd]. rewrite read_elem by (lia || (unfold is_int; cbn; lia)).
  set (b := read_back 1 (row_at 0 1 0 (mkS 6 sixth 1 1 0 0))). cbv zeta.
  assert (B1 : a_padHeight b = 1) by exact K1. assert (B2 : a_rowHeight b = 1) by exact K1.
  assert (B3 : a_left b = 0) by exact K0. assert (B4 : a_right b = 0) by exact K0.
  assert (B5 : a_padWidth b = atof (print_double sixth)) by reflexivity.
  assert (LB : legal_call (CAdd b)).
  { unfold legal_call. rewrite B1, B2, B3, B4, B5. change (a_nRow b) with 1%Z. change (a_nPad b) with 6%Z. repeat split; lia || lra. }
  rewrite E2. pose proof (addRow_rep _ _ _ _ _ _ _ _ (rep_new 0 1 0) LB) as HC. cbv zeta in HC.
  assert (NW : ~ width_fits 0 1 (srow_of b)).
  { unfold width_fits, srow_of. cbn [s_n s_padW s_left s_right]. rewrite B3, B4, B5. change (a_nPad b) with 6%Z. lra. }
  destruct HC as [(Hn&_)|[(Hn&_)|(_&e&He)]]; [tauto|tauto|]. exists e.
  rewrite He. reflexivity.
Qed.
