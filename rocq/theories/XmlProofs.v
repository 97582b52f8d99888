(** Writing and reading XML text: lemmas. *)
From Coq Require Import ZArith List String Ascii Bool Lia Arith.
From Verif Require Import Base XmlModel XmlSpec.
Import ListNotations.
Open Scope Z_scope.

(** ** Strings *)

Lemma sapp_nil_r : forall s, s +++ "" = s.
Proof. induction s; cbn; [reflexivity | rewrite IHs; reflexivity]. Qed.

Lemma sapp_assoc : forall a b c, (a +++ b) +++ c = a +++ b +++ c.
Proof. induction a; intros; cbn; [reflexivity | rewrite IHa; reflexivity]. Qed.

Lemma slen_app : forall a b, String.length (a +++ b) = (String.length a + String.length b)%nat.
Proof. induction a; intros; cbn; [reflexivity | rewrite IHa; reflexivity]. Qed.

Lemma strip_app : forall t s, strip t (t +++ s) = Some s.
Proof.
  induction t; intros; cbn; [reflexivity|]. unfold ceqb. rewrite Ascii.eqb_refl. apply IHt.
Qed.

Lemma strip_some : forall t s r, strip t s = Some r -> s = t +++ r.
Proof.
  induction t; intros s r H; cbn in *.
  - congruence.
  - destruct s; [discriminate|]. unfold ceqb in H. destruct (Ascii.eqb a a0) eqn:E; [|discriminate].
    apply Ascii.eqb_eq in E. subst. f_equal. apply IHt. exact H.
Qed.

Lemma ceqb_true : forall a b, ceqb a b = true <-> a = b.
Proof. intros. unfold ceqb. apply Ascii.eqb_eq. Qed.
Lemma ceqb_false : forall a b, ceqb a b = false <-> a <> b.
Proof. intros. unfold ceqb. apply Ascii.eqb_neq. Qed.
Lemma ceqb_refl : forall a, ceqb a a = true.
Proof. intros. apply ceqb_true. reflexivity. Qed.

Lemma byte_range : forall c, 0 <= byte c < 256.
Proof. intros. unfold byte. pose proof (N_ascii_bounded c). lia. Qed.

Lemma byte_inj : forall a b, byte a = byte b -> a = b.
Proof.
  intros a b H. unfold byte in H. apply N2Z.inj in H.
  rewrite <- (ascii_N_embedding a), <- (ascii_N_embedding b). f_equal. exact H.
Qed.

Lemma contains_byte_here : forall c t, contains_byte c (String c t).
Proof. intros. exists ""%string, t. reflexivity. Qed.
Lemma contains_byte_cons : forall c d t, contains_byte c t -> contains_byte c (String d t).
Proof. intros c d t [a [b ->]]. exists (String d a), b. reflexivity. Qed.
Lemma contains_byte_inv : forall c d t, contains_byte c (String d t) -> c = d \/ contains_byte c t.
Proof.
  intros c d t [a [b H]]. destruct a; cbn in H; injection H as E1 E2.
  - left. congruence.
  - right. exists a0, b. exact E2.
Qed.
Lemma contains_byte_nil : forall c, ~ contains_byte c "".
Proof. intros c [a [b H]]. destruct a; discriminate. Qed.

Lemma contains_cons : forall u d t, contains u t -> contains u (String d t).
Proof. intros u d t [a [b ->]]. exists (String d a), b. reflexivity. Qed.

Lemma has_char_iff : forall c s, has_char c s = true <-> contains_byte c s.
Proof.
  induction s; cbn.
  - split; [discriminate | intros H; destruct (contains_byte_nil _ H)].
  - rewrite orb_true_iff, ceqb_true, IHs. split.
    + intros [->|H]; [apply contains_byte_here | apply contains_byte_cons; exact H].
    + intros H. apply contains_byte_inv in H. exact H.
Qed.

(** ** Escaping *)

Fixpoint esc (s : string) : string :=
  match s with EmptyString => ""%string | String c t => esc1 c +++ esc t end.

Lemma put_esc : forall s, charref_free s -> put_string false s = esc s.
Proof.
  induction s; intros H; cbn; [reflexivity|].
  assert (T : charref_free s) by (intros Q; apply H; apply contains_cons; exact Q).
  destruct (ceqb a amp && StringEqual s "#x") eqn:E.
  - exfalso. apply andb_true_iff in E. destruct E as [E1 E2]. apply ceqb_true in E1.
    unfold StringEqual in E2. destruct (strip "#x" s) eqn:E3; [|discriminate].
    apply strip_some in E3. apply H. exists ""%string, s0. subst. reflexivity.
  - rewrite IHs by exact T. reflexivity.
Qed.

Lemma getchar_esc1 : forall c r, GetChar EncUnknown (esc1 c +++ r) = POk (String c "", Some r).
Proof.
  intros c r. destruct c as [[] [] [] [] [] [] [] []]; reflexivity.
Qed.

Lemma esc1_head : forall c, exists d t, esc1 c = String d t /\ d <> ltc /\ d <> quot /\ d <> apos.
Proof.
  intros c. destruct c as [[] [] [] [] [] [] [] []];
  (eexists; eexists; split; [reflexivity|]; repeat split; discriminate).
Qed.

Lemma c_str_app : forall a b, c_str a = a -> c_str (a +++ b) = a +++ c_str b.
Proof.
  induction a; intros b H; cbn in *; [reflexivity|].
  destruct (byte a =? 0); [discriminate|]. injection H as H. rewrite IHa by exact H. reflexivity.
Qed.

Lemma c_str_esc1 : forall c, c_str (esc1 c) = esc1 c.
Proof. intros c. destruct c as [[] [] [] [] [] [] [] []]; reflexivity. Qed.

Lemma c_str_esc : forall s, c_str (esc s) = esc s.
Proof.
  induction s; cbn; [reflexivity|]. rewrite c_str_app by apply c_str_esc1. rewrite IHs. reflexivity.
Qed.

Lemma no_nul_tail : forall c t, no_nul (String c t) -> byte c <> 0 /\ no_nul t.
Proof.
  intros c t H. split; [apply H; apply contains_byte_here|].
  intros d D. apply H. apply contains_byte_cons. exact D.
Qed.

Lemma c_str_id : forall s, no_nul s -> c_str s = s.
Proof.
  induction s; intros H; cbn; [reflexivity|]. apply no_nul_tail in H. destruct H as [H1 H2].
  destruct (Z.eqb_spec (byte a) 0); [contradiction|]. rewrite IHs by exact H2. reflexivity.
Qed.

Lemma c_str_PutString : forall s, charref_free s -> c_str (PutString s) = esc s.
Proof. intros. unfold PutString. rewrite put_esc by assumption. apply c_str_esc. Qed.

Lemma read_keep_esc : forall v q r n, q = quot \/ q = apos ->
  (String.length (esc v +++ String q r) <= n)%nat ->
  read_keep n EncUnknown (String q "") (Some (esc v +++ String q r)) = POk (v, AtTag r).
Proof.
  induction v; intros q r n Q L; cbn [esc].
  - cbn [String.append] in *. destruct n; [cbn in L; lia|].
    cbn [read_keep]. cbn [strip]. rewrite ceqb_refl. reflexivity.
  - rewrite sapp_assoc. cbn [esc] in L. rewrite sapp_assoc, slen_app in L.
    destruct (esc1_head a) as [d [t [E [N1 [N2 N3]]]]].
    assert (L1 : (1 <= String.length (esc1 a))%nat) by (rewrite E; cbn; lia).
    destruct n; [lia|]. cbn [read_keep].
    assert (S : strip (String q "") (esc1 a +++ esc v +++ String q r) = None).
    { rewrite E. cbn. replace (ceqb q d) with false; [reflexivity|]. symmetry. apply ceqb_false.
      destruct Q; congruence. }
    rewrite S, getchar_esc1. rewrite E. cbn [String.append pbind].
    rewrite IHv by (auto; lia). cbn. reflexivity.
Qed.

(** ** Names *)

Lemma start_byte_alpha : forall c, start_byte (byte c) -> IsAlpha c || ceqb c "_" = true.
Proof.
  intros c H. unfold start_byte in H. rewrite orb_true_iff.
  destruct (Z.eq_dec (byte c) 95) as [E|E].
  - right. apply ceqb_true. apply byte_inj. exact E.
  - left. unfold IsAlpha, isletter. destruct (Z.ltb_spec (byte c) 127); [|reflexivity].
    rewrite orb_true_iff, !andb_true_iff, !Z.leb_le. lia.
Qed.

Lemma name_byte_char : forall c, name_byte (byte c) -> name_char c = true.
Proof.
  intros c H. unfold name_byte, start_byte in H. unfold name_char. rewrite !orb_true_iff, !ceqb_true.
  destruct (Z.eq_dec (byte c) 95) as [E|E]; [left; left; left; right; apply byte_inj; exact E|].
  destruct (Z.eq_dec (byte c) 45) as [E1|E1]; [left; left; right; apply byte_inj; exact E1|].
  destruct (Z.eq_dec (byte c) 46) as [E2|E2]; [left; right; apply byte_inj; exact E2|].
  destruct (Z.eq_dec (byte c) 58) as [E3|E3]; [right; apply byte_inj; exact E3|].
  left; left; left; left. unfold IsAlphaNum, isletter, isdigit_b.
  destruct (Z.ltb_spec (byte c) 127); [|reflexivity].
  rewrite !orb_true_iff, !andb_true_iff, !Z.leb_le. lia.
Qed.

Lemma read_name_loop_app : forall n c r, all_bytes name_byte n -> name_char c = false ->
  read_name_loop (n +++ String c r) = (n, String c r).
Proof.
  induction n; intros c r A N; cbn.
  - rewrite N. reflexivity.
  - rewrite name_byte_char by (apply A; apply contains_byte_here).
    rewrite IHn; auto. intros d D. apply A. apply contains_byte_cons. exact D.
Qed.

Lemma xml_name_bytes : forall n, xml_name n -> all_bytes name_byte n.
Proof.
  intros n [c [t [-> [H1 H2]]]] d D. apply contains_byte_inv in D. destruct D as [->|D].
  - left. exact H1.
  - apply H2. exact D.
Qed.

Lemma ReadName_app : forall n c r, xml_name n -> name_char c = false ->
  ReadName (Some (n +++ String c r)) = (n, Some (String c r)).
Proof.
  intros n c r X N. pose proof (xml_name_bytes _ X) as A. destruct X as [d [t [-> [H1 H2]]]].
  unfold ReadName. cbn [String.append]. rewrite start_byte_alpha by exact H1.
  change (String d (t +++ String c r)) with (String d t +++ String c r).
  rewrite read_name_loop_app by assumption. reflexivity.
Qed.

Lemma name_byte_plain : forall c, name_byte (byte c) -> esc1 c = String c "" /\ byte c <> 0.
Proof.
  intros c H. unfold name_byte, start_byte in H. split; [|lia].
  unfold esc1.
  replace (ceqb c amp) with false by (symmetry; apply ceqb_false; intros ->; cbv in H; intuition congruence).
  replace (ceqb c ltc) with false by (symmetry; apply ceqb_false; intros ->; cbv in H; intuition congruence).
  replace (ceqb c gtc) with false by (symmetry; apply ceqb_false; intros ->; cbv in H; intuition congruence).
  replace (ceqb c quot) with false by (symmetry; apply ceqb_false; intros ->; cbv in H; intuition congruence).
  replace (ceqb c apos) with false by (symmetry; apply ceqb_false; intros ->; cbv in H; intuition congruence).
  destruct (Z.ltb_spec (byte c) 32); [lia | reflexivity].
Qed.

Lemma esc_name : forall n, all_bytes name_byte n -> esc n = n.
Proof.
  induction n; intros A; cbn; [reflexivity|].
  destruct (name_byte_plain a) as [E _]; [apply A; apply contains_byte_here|].
  rewrite E, IHn; [reflexivity|]. intros d D. apply A. apply contains_byte_cons. exact D.
Qed.

Lemma name_no_nul : forall n, all_bytes name_byte n -> no_nul n.
Proof. intros n A c C. apply name_byte_plain. apply A. exact C. Qed.

Lemma contains_byte_of : forall u c t s, u = String c t -> contains u s -> contains_byte c s.
Proof. intros u c t s -> [a [b ->]]. exists a, (t +++ b). reflexivity. Qed.

Lemma name_charref_free : forall n, all_bytes name_byte n -> charref_free n.
Proof.
  intros n A C. assert (B : contains_byte amp n) by (eapply contains_byte_of; [reflexivity|exact C]).
  apply A in B. cbv in B. intuition congruence.
Qed.

Lemma name_cstr : forall n, xml_name n -> c_str n = n.
Proof. intros n X. apply c_str_id. apply name_no_nul. apply xml_name_bytes. exact X. Qed.

Lemma name_start_not_space : forall n, xml_name n -> exists c t, n = String c t /\ IsWhiteSpace c = false /\
  c <> "/"%char /\ c <> gtc.
Proof.
  intros n [c [t [-> [H _]]]]. exists c, t. unfold start_byte in H. repeat split.
  - unfold IsWhiteSpace. apply orb_false_iff. rewrite andb_false_iff, Z.leb_gt, Z.leb_gt, Z.eqb_neq. lia.
  - intros ->. cbv in H. intuition congruence.
  - intros ->. cbv in H. intuition congruence.
Qed.

(** ** White space *)

Lemma skip_id : forall c t e, e <> EncUtf8 -> IsWhiteSpace c = false ->
  SkipWhiteSpace e (Some (String c t)) = Some (String c t).
Proof. intros c t e N H. destruct e; try contradiction; cbn; rewrite H; reflexivity. Qed.

Lemma skip_space : forall c t, IsWhiteSpace c = true ->
  SkipWhiteSpace EncUnknown (Some (String c t)) = Some (skip_ws t).
Proof. intros c t H. cbn. rewrite H. reflexivity. Qed.

Fixpoint all_ws (s : string) : bool :=
  match s with EmptyString => true | String c t => IsWhiteSpace c && all_ws t end.

Lemma skip_ws_app : forall w s, all_ws w = true -> skip_ws (w +++ s) = skip_ws s.
Proof.
  induction w; intros s H; cbn in *; [reflexivity|]. apply andb_true_iff in H. destruct H as [H1 H2].
  rewrite H1. apply IHw. exact H2.
Qed.

Lemma all_ws_app : forall a b, all_ws (a +++ b) = all_ws a && all_ws b.
Proof. induction a; intros; cbn; [reflexivity|]. rewrite IHa, andb_assoc. reflexivity. Qed.

Lemma indent_ws : forall d, all_ws (indent d) = true.
Proof. induction d; [reflexivity|]. cbn [indent]. rewrite all_ws_app, IHd. reflexivity. Qed.

(** ** Attributes *)

Lemma print_attr_eq : forall n v, xml_name n -> charref_free v ->
  exists q, (q = quot \/ q = apos) /\
    print_attr (n, v) = n +++ String "="%char (String q (esc v +++ String q "")).
Proof.
  intros n v X C. exists (if has_char quot v then apos else quot). split.
  - destruct (has_char quot v); auto.
  - unfold print_attr. cbn [fst snd].
    rewrite (c_str_PutString v C).
    rewrite (c_str_PutString n) by (apply name_charref_free, xml_name_bytes; exact X).
    rewrite esc_name by (apply xml_name_bytes; exact X). reflexivity.
Qed.

Lemma read_quoted_esc : forall v q r, q = quot \/ q = apos ->
  read_quoted EncUnknown q (esc v +++ String q r) = POk (v, Some r).
Proof.
  intros v q r Q. unfold read_quoted, ReadText. cbn [plen].
  rewrite read_keep_esc by (auto; lia). reflexivity.
Qed.

Lemma parse_attr_print : forall n v r, xml_name n -> charref_free v ->
  parse_attr EncUnknown (Some (print_attr (n, v) +++ r)) = POk (n, v, Some r, false).
Proof.
  intros n v r X C. destruct (print_attr_eq n v X C) as [q [Q ->]].
  destruct (name_start_not_space n X) as [c [t [E [W _]]]].
  unfold parse_attr. rewrite sapp_assoc. cbn [String.append]. rewrite sapp_assoc.
  assert (S : SkipWhiteSpace EncUnknown (Some (n +++ String "=" (String q (esc v +++ String q "" +++ r))))
            = Some (n +++ String "=" (String q (esc v +++ String q "" +++ r)))).
  { rewrite E. cbn [String.append]. apply skip_id; [discriminate | exact W]. }
  rewrite S.
  rewrite ReadName_app by (auto; reflexivity).
  rewrite E. cbn [String.append].
  rewrite skip_id by (try discriminate; reflexivity).
  rewrite (ceqb_refl "="%char).
  rewrite skip_id by (try discriminate; destruct Q as [->| ->]; reflexivity).
  replace (ceqb q apos || ceqb q quot) with true
    by (symmetry; apply orb_true_iff; rewrite !ceqb_true; tauto).
  rewrite read_quoted_esc by exact Q. reflexivity.
Qed.

Lemma find_attr_none : forall k l, ~ In k (map fst l) -> find_attr k l = None.
Proof.
  induction l as [|[n v] l IH]; cbn; intros H; [reflexivity|].
  destruct (String.eqb_spec n k); [subst; tauto|]. apply IH. tauto.
Qed.

Lemma parse_attrs_step : forall n acc s q name v,
  parse_attr EncUnknown (Some s) = POk (name, v, Some q, false) -> q <> ""%string ->
  (exists c t, s = String c t /\ IsWhiteSpace c = false /\ c <> "/"%char /\ c <> gtc) ->
  find_attr (c_str name) acc = None ->
  parse_attrs (S n) EncUnknown acc (Some (String " " s)) = parse_attrs n EncUnknown (acc ++ [(name, v)]) (Some q).
Proof.
  intros n acc s q name v P Q [c [t [E [W [N1 N2]]]]] F.
  cbn [parse_attrs]. rewrite skip_space by reflexivity. rewrite E. cbn [skip_ws]. rewrite W.
  replace (ceqb c "/") with false by (symmetry; apply ceqb_false; exact N1).
  replace (ceqb c gtc) with false by (symmetry; apply ceqb_false; exact N2).
  rewrite <- E, P. cbn [pbind]. destruct q; [contradiction|]. rewrite F. reflexivity.
Qed.

Definition attr_ok (a : string * string) : Prop := xml_name (fst a) /\ no_nul (snd a) /\ charref_free (snd a).

Lemma print_attrs_ne : forall l tail, tail <> ""%string -> print_attrs l +++ tail <> ""%string.
Proof. intros [|a l] tail H; cbn; [exact H | discriminate]. Qed.

Lemma parse_attrs_print : forall l acc tail n out,
  Forall attr_ok l -> NoDup (map fst (acc ++ l)) -> tail <> ""%string ->
  (forall m acc2, (1 <= m)%nat -> parse_attrs m EncUnknown acc2 (Some tail) = POk (acc2, out)) ->
  (List.length l < n)%nat ->
  parse_attrs n EncUnknown acc (Some (print_attrs l +++ tail)) = POk (acc ++ l, out).
Proof.
  induction l as [|[k v] l IH]; intros acc tail n out A N T H L.
  - rewrite app_nil_r. apply H. cbn in L. lia.
  - assert (A1 : attr_ok (k, v)) by (inversion A; assumption).
    assert (A2 : Forall attr_ok l) by (inversion A; assumption).
    destruct A1 as [X [NN C]]. cbn [fst snd] in *.
    destruct n; [lia|].
    cbn [print_attrs]. rewrite sapp_assoc. cbn [String.append]. rewrite sapp_assoc.
    rewrite parse_attrs_step with (q := print_attrs l +++ tail) (name := k) (v := v).
    + rewrite IH with (out := out); auto.
      * rewrite <- app_assoc. reflexivity.
      * rewrite <- app_assoc. exact N.
      * cbn in L. lia.
    + apply parse_attr_print; assumption.
    + apply print_attrs_ne. exact T.
    + destruct (print_attr_eq k v X C) as [q [Q E]]. rewrite E.
      destruct (name_start_not_space k X) as [c [t [E2 H2]]]. rewrite E2. cbn [String.append].
      eexists; eexists; split; [reflexivity | exact H2].
    + rewrite name_cstr by exact X. apply find_attr_none. rewrite map_app in N. cbn in N.
      apply NoDup_remove_2 in N. intros Q. apply N. apply in_or_app. left. exact Q.
Qed.

Lemma parse_attrs_empty : forall r m acc, (1 <= m)%nat ->
  parse_attrs m EncUnknown acc (Some (" />" +++ r)) = POk (acc, AEmpty r).
Proof. intros r m acc L. destruct m; [lia|]. reflexivity. Qed.

Lemma parse_attrs_open : forall r m acc, (1 <= m)%nat ->
  parse_attrs m EncUnknown acc (Some (">" +++ r)) = POk (acc, AOpen r).
Proof. intros r m acc L. destruct m; [lia|]. reflexivity. Qed.

Lemma print_attrs_len : forall l, (List.length l <= String.length (print_attrs l))%nat.
Proof.
  induction l; cbn; [lia|]. rewrite !slen_app. lia.
Qed.

(** ** Text *)

Lemma esc1_head_text : forall c, c <> sp -> exists d t, esc1 c = String d t /\ IsWhiteSpace d = false /\ d <> ltc.
Proof.
  intros c H. destruct c as [[] [] [] [] [] [] [] []];
  first [exfalso; apply H; reflexivity |
         eexists; eexists; split; [reflexivity|]; split; [reflexivity | discriminate]].
Qed.

Lemma read_trim_ws : forall w r n b, all_ws w = true -> (String.length (w +++ String ltc r) <= n)%nat ->
  read_trim n EncUnknown "<" b (Some (w +++ String ltc r)) = POk (""%string, AtTag r).
Proof.
  induction w; intros r n b A L; cbn [String.append] in *.
  - destruct n; [cbn in L; lia|]. reflexivity.
  - cbn in A. apply andb_true_iff in A. destruct A as [A1 A2].
    destruct n; [cbn in L; lia|]. cbn [read_trim strip].
    replace (ceqb "<" a) with false.
    + rewrite A1. apply IHw; [exact A2 | cbn in L; lia].
    + symmetry. apply ceqb_false. intros <-. discriminate.
Qed.

Definition no_end_space (v : string) : Prop := forall t, v <> t +++ " ".

Lemma no_end_space_tail : forall c t, no_end_space (String c t) -> no_end_space t.
Proof. intros c t H u E. apply (H (String c u)). rewrite E. reflexivity. Qed.

Lemma read_trim_esc : forall v w r n b, all_ws w = true -> ~ contains "  " v -> no_end_space v ->
  (b = true -> forall t, v <> String " " t) ->
  (String.length (esc v +++ w +++ String ltc r) <= n)%nat ->
  read_trim n EncUnknown "<" b (Some (esc v +++ w +++ String ltc r)) =
    POk ((if b && negb (String.eqb v "") then " " else "") +++ v, AtTag r).
Proof.
  induction v as [|c v IH]; intros w r n b A D E B L.
  - cbn [esc String.append] in *. rewrite andb_false_r. apply read_trim_ws; assumption.
  - assert (D2 : ~ contains "  " v) by (intros Q; apply D; apply contains_cons; exact Q).
    assert (E2 := no_end_space_tail _ _ E).
    cbn [esc]. rewrite sapp_assoc. cbn [esc] in L. rewrite sapp_assoc, slen_app in L.
    destruct (ascii_dec c sp) as [->|N].
    + destruct b; [exfalso; apply (B eq_refl v); reflexivity|].
      destruct n; [cbn in L; lia|].
      change (esc1 sp) with " "%string. cbn [String.append read_trim strip].
      change (ceqb "<" " ") with false. change (IsWhiteSpace " ") with true. cbv iota.
      rewrite IH; auto.
      * destruct v as [|d v]; [exfalso; apply (E ""%string); reflexivity|]. reflexivity.
      * intros _ t Ev. apply D. exists ""%string, t. rewrite Ev. reflexivity.
      * cbn in L. lia.
    + destruct (esc1_head_text c N) as [d [t [H1 [H2 H3]]]].
      assert (L1 : (1 <= String.length (esc1 c))%nat) by (rewrite H1; cbn; lia).
      destruct n; [lia|].
      assert (G := getchar_esc1 c (esc v +++ w +++ String ltc r)).
      rewrite H1 in *. cbn [String.append] in *. cbn [read_trim strip].
      replace (ceqb "<" d) with false by (symmetry; apply ceqb_false; intros <-; apply H3; reflexivity).
      rewrite H2, G. cbn [pbind]. rewrite IH; auto.
      * cbn [pbind andb String.append]. destruct b; reflexivity.
      * discriminate.
      * lia.
Qed.

Lemma parse_text_esc : forall v w r, all_ws w = true -> tidy_text v ->
  parse_text EncUnknown (esc v +++ w +++ String ltc r) = POk (v, Some (String ltc r)).
Proof.
  intros v w r A [T1 [T2 [T3 [c [C1 C2]]]]]. unfold parse_text, ReadText.
  destruct v as [|d v]; [destruct (contains_byte_nil _ C1)|].
  assert (N : d <> sp) by (intros ->; apply (T1 v); reflexivity).
  destruct (esc1_head_text d N) as [e [t [H1 [H2 H3]]]].
  assert (S : SkipWhiteSpace EncUnknown (Some (esc (String d v) +++ w +++ String ltc r))
              = Some (esc (String d v) +++ w +++ String ltc r)).
  { cbn [esc]. rewrite H1. cbn [String.append]. apply skip_id; [discriminate | exact H2]. }
  rewrite S. cbn [plen]. rewrite read_trim_esc; auto; try lia; discriminate.
Qed.

Lemma blank_false : forall v c, contains_byte c v -> IsWhiteSpace c = false -> blank v = false.
Proof.
  induction v; intros c C W; [destruct (contains_byte_nil _ C)|]. cbn.
  apply contains_byte_inv in C. destruct C as [->|C]; [rewrite W; reflexivity|].
  rewrite (IHv c C W). apply andb_false_r.
Qed.

Lemma tidy_not_blank : forall v, tidy_text v -> blank v = false.
Proof.
  intros v [_ [_ [_ [c [C1 [C2 C3]]]]]]. apply blank_false with c; [exact C1|].
  unfold IsWhiteSpace. apply orb_false_iff. rewrite andb_false_iff, Z.leb_gt, Z.leb_gt, Z.eqb_neq. lia.
Qed.

(** ** Comments *)

Lemma getchar_plain : forall c t, c <> amp -> GetChar EncUnknown (String c t) = POk (String c "", Some t).
Proof.
  intros c t H. unfold GetChar. cbn [is_utf8]. cbn [Z.eqb Pos.eqb].
  replace (ceqb c amp) with false by (symmetry; apply ceqb_false; exact H). reflexivity.
Qed.

Lemma read_keep_comment : forall v r n, ~ contains_byte amp v -> ~ contains "-->" v ->
  (String.length (v +++ "-->" +++ r) <= n)%nat ->
  read_keep n EncUnknown "-->" (Some (v +++ "-->" +++ r)) = POk (v, AtTag r).
Proof.
  induction v as [|c v IH]; intros r n A C L.
  - destruct n; [cbn in L; lia|]. reflexivity.
  - destruct n; [cbn in L; lia|]. cbn [String.append read_keep].
    assert (A2 : ~ contains_byte amp v) by (intros Q; apply A; apply contains_byte_cons; exact Q).
    assert (C2 : ~ contains "-->" v) by (intros Q; apply C; apply contains_cons; exact Q).
    assert (N : c <> amp) by (intros ->; apply A; apply contains_byte_here).
    destruct (strip "-->" (String c (v +++ String "-" (String "-" (String ">" r))))) eqn:S.
    + exfalso. apply strip_some in S. cbn in S. injection S as S1 S2. subst c.
      destruct v as [|c1 [|c2 v]]; cbn in S2.
      * discriminate.
      * discriminate.
      * injection S2 as S3 S4 S5. subst. apply C. exists ""%string, v. reflexivity.
    + rewrite getchar_plain by exact N. cbn [pbind].
      change (String "-" (String "-" (String ">" r))) with ("-->" +++ r).
      rewrite IH; auto. cbn in L. cbn. lia.
Qed.

Lemma parse_comment_print : forall v r, ~ contains_byte amp v -> ~ contains "-->" v ->
  parse_comment EncUnknown ("<!--" +++ v +++ "-->" +++ r) = POk (XComment v, Some r, false).
Proof.
  intros v r A C. unfold parse_comment, ReadText. cbn [String.append drop plen].
  change (String "-" (String "-" (String ">" r))) with ("-->" +++ r).
  rewrite read_keep_comment by (auto; lia). reflexivity.
Qed.

(** ** Trees *)

Fixpoint xnode_induct (P : xnode -> Prop)
  (He : forall n a ch, Forall P ch -> P (XElem n a ch))
  (Ht : forall s, P (XText s)) (Hc : forall s, P (XComment s)) (Hu : forall s, P (XUnknown s))
  (Hd : forall v e s, P (XDecl v e s)) (x : xnode) : P x :=
  match x with
  | XElem n a ch =>
      He n a ch ((fix go (l : list xnode) : Forall P l :=
        match l with
        | [] => Forall_nil P
        | y :: t => Forall_cons y (xnode_induct P He Ht Hc Hu Hd y) (go t)
        end) ch)
  | XText s => Ht s
  | XComment s => Hc s
  | XUnknown s => Hu s
  | XDecl v e s => Hd v e s
  end.

(** a node without the indentation before it *)
Definition body (depth : nat) (x : xnode) : string :=
  match x with
  | XElem n a ch =>
      "<" +++ c_str n +++ print_attrs a +++
      match ch with
      | [] => " />"%string
      | _ => ">" +++ print_children (S depth) ch +++
             (match ch with [XText _] => ""%string | _ => nls +++ indent depth end) +++ "</" +++ c_str n +++ ">"
      end
  | _ => print_node 0 x
  end.

Lemma print_children_go : forall depth l,
  (fix go (l : list xnode) : string :=
     match l with
     | [] => ""%string
     | c :: t => (if is_text c then "" else nls) +++ print_node depth c +++ go t
     end) l = print_children depth l.
Proof. induction l; [reflexivity|]. cbn [print_children]. rewrite <- IHl. reflexivity. Qed.

Lemma print_node_body : forall x depth, writable x -> is_text x = false ->
  print_node depth x = indent depth +++ body depth x.
Proof.
  intros x depth W T. inversion W; subst; cbn [is_text] in T; try discriminate.
  - cbn [print_node body]. rewrite print_children_go.
    destruct ch as [|c [|c2 ch]]; try reflexivity.
    + destruct c; try reflexivity.
      all: cbn [print_children is_text]; rewrite ?sapp_nil_r, ?sapp_assoc; reflexivity.
    + destruct c; rewrite ?sapp_assoc; reflexivity.
  - reflexivity.
Qed.

Lemma attrs_forall : forall a,
  (forall k v, In (k, v) a -> xml_name k /\ no_nul v /\ charref_free v) -> Forall attr_ok a.
Proof. intros a H. apply Forall_forall. intros [k v] I. apply H. exact I. Qed.

Definition elem_reads (x : xnode) : Prop :=
  forall depth r m, is_elem x = true -> (2 * String.length (body depth x +++ r) <= m)%nat ->
    parse_elem m EncUnknown (Some (body depth x +++ r)) = POk (x, Some r, false).

Lemma body_head : forall x depth, writable x -> is_text x = false ->
  exists t, body depth x = String ltc t /\ forall r, StringEqual (body depth x +++ r) "</" = false.
Proof.
  intros x depth W T. inversion W; subst; cbn [is_text] in T; try discriminate.
  - cbn [body String.append]. eexists; split; [reflexivity|]. intros r.
    unfold StringEqual. cbn [String.append strip]. rewrite ceqb_refl.
    match goal with H : xml_name n |- _ => destruct (name_start_not_space n H) as [c [t [E [_ [N _]]]]];
      rewrite (name_cstr n H) end.
    rewrite E. cbn [String.append].
    replace (ceqb "/" c) with false; [reflexivity|]. symmetry. apply ceqb_false. congruence.
  - cbn. eexists; split; [reflexivity|]. reflexivity.
Qed.

(** the text after a text node starts with white space and '<' *)
Lemma rest_shape : forall l depth w r, all_ws w = true ->
  (forall x, In x l -> writable x) ->
  match l with XText _ :: _ => False | _ => True end ->
  exists u z, print_children depth l +++ w +++ "</" +++ r = u +++ String ltc z /\ all_ws u = true.
Proof.
  intros [|x l] depth w r A W H.
  - exists w, (String "/" r). split; [reflexivity | exact A].
  - assert (T : is_text x = false) by (destruct x; [reflexivity | contradiction | reflexivity..]).
    assert (Wx : writable x) by (apply W; left; reflexivity).
    destruct (body_head x depth Wx T) as [t [E _]].
    cbn [print_children]. rewrite T, print_node_body, E by assumption.
    exists (nls +++ indent depth), (t +++ print_children depth l +++ w +++ "</" +++ r). split.
    + rewrite !sapp_assoc. reflexivity.
    + rewrite all_ws_app, indent_ws. reflexivity.
Qed.

Lemma skip_some : forall s, s <> ""%string -> SkipWhiteSpace EncUnknown (Some s) = Some (skip_ws s).
Proof. intros [|c t] H; [contradiction|]. reflexivity. Qed.

Lemma body_ident : forall n a ch depth r, xml_name n ->
  identify (body depth (XElem n a ch) +++ r) = KElem.
Proof.
  intros n a ch depth r X. cbn [body]. rewrite name_cstr by exact X.
  pose proof X as X0. destruct X as [c [t [-> [H _]]]]. cbn [String.append]. unfold identify.
  assert (Q1 : ceqb (ToLower c) (ToLower "?") = false).
  { apply ceqb_false. intros Q. change (ToLower "?"%char) with "?"%char in Q. unfold ToLower in Q.
    unfold start_byte in H.
    destruct ((65 <=? byte c) && (byte c <=? 90)) eqn:E.
    - apply (f_equal byte) in Q. change (byte "?") with 63 in Q. unfold byte, chr in Q.
      rewrite N_ascii_embedding in Q.
      + apply andb_true_iff in E. rewrite !Z.leb_le in E. fold (byte c) in Q.
        rewrite Z.mod_small in Q by lia. lia.
      + fold (byte c). pose proof (Z.mod_pos_bound (byte c + 32) 256). lia.
    - subst c. cbv in H. intuition congruence. }
  cbn [StringEqualNoCase]. change (ceqb (ToLower ltc) (ToLower "<")) with true. cbv iota.
  change (ceqb (ToLower "<") (ToLower "<")) with true. cbv iota.
  rewrite Q1.
  assert (Q2 : ceqb "!" c = false).
  { apply ceqb_false. intros <-. cbv in H. intuition congruence. }
  unfold StringEqual. cbn [strip]. change (ceqb "<" "<") with true. cbv iota. rewrite Q2.
  rewrite start_byte_alpha by exact H. reflexivity.
Qed.

Lemma read_value_print : forall l depth w r m,
  all_ws w = true ->
  (forall x, In x l -> writable x) -> Forall elem_reads l -> no_adjacent_text l ->
  (2 * String.length (print_children depth l +++ w +++ "</" +++ r) + 1 <= m)%nat ->
  read_value m EncUnknown (Some (skip_ws (print_children depth l +++ w +++ "</" +++ r))) =
    POk (l, Some ("</" +++ r), false).
Proof.
  induction l as [|x l IH]; intros depth w r m A W F N L.
  - cbn [print_children String.append]. rewrite skip_ws_app by exact A.
    destruct m; [cbn in L; lia|]. reflexivity.
  - assert (Wx : writable x) by (apply W; left; reflexivity).
    assert (Wl : forall y, In y l -> writable y) by (intros y Y; apply W; right; exact Y).
    assert (Fx : elem_reads x) by (inversion F; assumption).
    assert (Fl : Forall elem_reads l) by (inversion F; assumption).
    assert (Nl : no_adjacent_text l) by (destruct x, l as [|[] ?]; cbn in N |- *; tauto).
    assert (NE : print_children depth l +++ w +++ "</" +++ r <> ""%string).
    { intros Q. apply (f_equal String.length) in Q. rewrite !slen_app in Q. cbn in Q. lia. }
    set (rest := print_children depth l +++ w +++ "</" +++ r) in *.
    assert (ER : print_children depth (x :: l) +++ w +++ "</" +++ r =
                 (if is_text x then "" else nls) +++ print_node depth x +++ rest).
    { cbn [print_children]. rewrite !sapp_assoc. reflexivity. }
    rewrite ER in L. rewrite ER. clear ER.
    rewrite !slen_app in L.
    assert (LR : (2 <= String.length rest)%nat).
    { unfold rest. rewrite !slen_app. cbn. lia. }
    destruct (is_text x) eqn:T.
    + destruct x as [n a ch|s|s|s|v e s]; try discriminate.
      assert (TT : no_nul s /\ charref_free s /\ tidy_text s) by (inversion Wx; auto).
      destruct TT as [T1 [T2 T3]].
      cbn [String.append print_node]. rewrite (c_str_PutString s T2).
      cbn [print_node] in L. rewrite (c_str_PutString s T2) in L.
      destruct (rest_shape l depth w r A Wl) as [u [z [E U]]].
      { destruct l as [|[] l]; auto. }
      fold rest in E.
      pose proof T3 as TD. destruct T3 as [S1 [_ [_ [c0 [C0 _]]]]].
      destruct s as [|d s]; [destruct (contains_byte_nil _ C0)|].
      assert (ND : d <> sp) by (intros ->; apply (S1 s); reflexivity).
      destruct (esc1_head_text d ND) as [d1 [t1 [H1 [H2 H3]]]].
      assert (SK : skip_ws (esc (String d s) +++ rest) = esc (String d s) +++ rest).
      { cbn [esc]. rewrite H1. cbn [String.append skip_ws]. rewrite H2. reflexivity. }
      assert (LE : (1 <= String.length (esc (String d s)))%nat).
      { cbn [esc]. rewrite slen_app, H1. cbn. lia. }
      rewrite SK. destruct m; [lia|]. cbn [read_value].
      assert (PT := parse_text_esc (String d s) u z U TD). rewrite <- E in PT.
      assert (HD : exists y, esc (String d s) +++ rest = String d1 y).
      { cbn [esc]. rewrite H1. cbn [String.append]. eexists; reflexivity. }
      destruct HD as [y HD]. rewrite HD in *.
      replace (negb (ceqb d1 ltc)) with true
        by (symmetry; apply negb_true_iff; apply ceqb_false; exact H3).
      rewrite PT. cbn [pbind].
      assert (SR : SkipWhiteSpace EncUnknown (Some (String ltc z)) = Some (skip_ws rest)).
      { rewrite E. rewrite skip_ws_app by exact U. reflexivity. }
      rewrite SR. unfold rest. rewrite IH; auto; [|fold rest; cbn [String.length] in L; lia]. cbn [pbind].
      rewrite tidy_not_blank by exact TD. reflexivity.
    + rewrite print_node_body by assumption. rewrite !sapp_assoc.
      rewrite skip_ws_app by reflexivity. rewrite skip_ws_app by apply indent_ws.
      destruct (body_head x depth Wx T) as [t [E SE]].
      specialize (SE rest).
      assert (SK : skip_ws (body depth x +++ rest) = body depth x +++ rest) by (rewrite E; reflexivity).
      rewrite SK. destruct m; [lia|]. cbn [read_value].
      assert (HD : body depth x +++ rest = String ltc (t +++ rest)) by (rewrite E; reflexivity).
      rewrite HD. rewrite (ceqb_refl ltc). cbn [negb]. rewrite <- HD, SE.
      assert (LB : (String.length (body depth x) <= String.length (print_node depth x))%nat).
      { rewrite print_node_body by assumption. rewrite slen_app. lia. }
      assert (P : match identify (body depth x +++ rest) with
                  | KDecl => parse_decl EncUnknown (body depth x +++ rest)
                  | KComment => parse_comment EncUnknown (body depth x +++ rest)
                  | KUnknown => parse_unknown (body depth x +++ rest)
                  | KElem => parse_elem m EncUnknown (Some (body depth x +++ rest))
                  end = POk (x, Some rest, false)).
      { destruct x as [n a ch|s|s|s|v e s]; try discriminate; try (exfalso; inversion Wx; fail).
        - assert (X : xml_name n) by (inversion Wx; assumption).
          rewrite body_ident by exact X. apply Fx; [reflexivity|].
          rewrite slen_app. change (String.length nls) with 1%nat in L. lia.
        - assert (C : no_nul s /\ ~ contains_byte "&"%char s /\ ~ contains "-->" s) by (inversion Wx; auto).
          destruct C as [C1 [C2 C3]].
          assert (B : body depth (XComment s) +++ rest = "<!--" +++ s +++ "-->" +++ rest).
          { cbn [body print_node indent]. rewrite c_str_id by exact C1. cbn [String.append].
            rewrite sapp_assoc. reflexivity. }
          rewrite B. cbn [String.append].
          change (identify _) with KComment. cbv iota.
          apply parse_comment_print; assumption. }
      rewrite P. cbn [pbind]. rewrite skip_some by exact NE.
      unfold rest. rewrite IH; auto. fold rest. change (String.length nls) with 1%nat in L. lia.
Qed.

Lemma elem_reads_all : forall x, writable x -> elem_reads x.
Proof.
  induction x as [n a ch IH|s|s|s|v e s] using xnode_induct; intros W depth r m IE L; try discriminate.
  assert (X : xml_name n) by (inversion W; assumption).
  assert (AT : Forall attr_ok a) by (apply attrs_forall; inversion W; assumption).
  assert (ND : NoDup (map fst a)) by (inversion W; assumption).
  assert (WC : forall x, In x ch -> writable x) by (inversion W; assumption).
  assert (NA : no_adjacent_text ch) by (inversion W; assumption).
  assert (FR : Forall elem_reads ch).
  { apply Forall_forall. intros x I. rewrite Forall_forall in IH. apply IH; auto. }
  clear IH. cbn [body] in *. rewrite (name_cstr n X) in *.
  set (tail := match ch with
    | [] => " />"%string
    | _ => ">" +++ print_children (S depth) ch +++
             (match ch with [XText _] => ""%string | _ => nls +++ indent depth end) +++ "</" +++ n +++ ">"
    end) in *.
  rewrite !sapp_assoc in *. rewrite !slen_app in L.
  destruct m; [cbn in L; lia|]. cbn [String.append parse_elem].
  change (SkipWhiteSpace EncUnknown (Some (String "<" (n +++ print_attrs a +++ tail +++ r))))
    with (Some (String "<" (n +++ print_attrs a +++ tail +++ r))).
  cbv iota. change (ceqb "<" ltc) with true. cbn [negb].
  destruct (name_start_not_space n X) as [c [t [E [Wc _]]]].
  assert (S1 : SkipWhiteSpace EncUnknown (Some (n +++ print_attrs a +++ tail +++ r)) =
               Some (n +++ print_attrs a +++ tail +++ r)).
  { rewrite E. cbn [String.append]. apply skip_id; [discriminate | exact Wc]. }
  rewrite S1.
  assert (TN : exists d u, print_attrs a +++ tail +++ r = String d u /\ name_char d = false).
  { destruct a as [|b a].
    - cbn [print_attrs String.append]. unfold tail. destruct ch; cbn [String.append];
        eexists; eexists; (split; [reflexivity|]; reflexivity).
    - cbn [print_attrs String.append]. eexists; eexists; split; reflexivity. }
  destruct TN as [d [u [EU NC]]].
  assert (RN : ReadName (Some (n +++ print_attrs a +++ tail +++ r)) = (n, Some (print_attrs a +++ tail +++ r))).
  { rewrite EU. apply ReadName_app; assumption. }
  rewrite RN. rewrite EU at 1. cbv iota beta.
  assert (LA := print_attrs_len a).
  assert (TNE : tail +++ r <> ""%string).
  { unfold tail. destruct ch; discriminate. }
  destruct ch as [|x ch].
  - rewrite (parse_attrs_print a [] (tail +++ r) _ (AEmpty r)); auto.
    + intros m0 acc2 Hm. apply parse_attrs_empty. exact Hm.
    + rewrite !slen_app. cbn. lia.
  - set (ch' := x :: ch) in *.
    set (w := match ch' with [XText _] => ""%string | _ => nls +++ indent depth end) in *.
    assert (AW : all_ws w = true).
    { unfold w, ch'. destruct x, ch; try reflexivity; rewrite all_ws_app, indent_ws; reflexivity. }
    assert (TE : tail = ">" +++ print_children (S depth) ch' +++ w +++ "</" +++ n +++ ">") by reflexivity.
    clearbody tail w. subst tail. rewrite !sapp_assoc in *.
    rewrite (parse_attrs_print a [] _ _ (AOpen (print_children (S depth) ch' +++ w +++ "</" +++ n +++ ">" +++ r))); auto.
    + cbn [pbind app]. rewrite skip_some.
      2:{ intros Q. apply (f_equal String.length) in Q. rewrite !slen_app in Q. cbn in Q. lia. }
      rewrite (read_value_print ch' (S depth) w (n +++ ">" +++ r)); auto.
      * cbn [pbind String.append strip].
        change (ceqb "<" "<") with true. change (ceqb "/" "/") with true. cbv iota.
        change (n +++ String ">" r) with (n +++ ">" +++ r). rewrite <- sapp_assoc, strip_app. reflexivity.
      * rewrite !slen_app in *. cbn [String.length] in *. lia.
    + intros m0 acc2 Hm. apply parse_attrs_open. exact Hm.
    + rewrite !slen_app. cbn. lia.
Qed.

(** ** Documents *)

Lemma parse_node_print : forall x r, writable x -> is_text x = false ->
  parse_node EncUnknown (body 0 x +++ r) = POk (x, Some r, false).
Proof.
  intros x r W T. unfold parse_node. destruct x as [n a ch|s|s|s|v e s]; try discriminate; try (exfalso; inversion W; fail).
  - assert (X : xml_name n) by (inversion W; assumption).
    rewrite body_ident by exact X. apply elem_reads_all; auto. unfold elem_fuel. lia.
  - assert (C : no_nul s /\ ~ contains_byte "&"%char s /\ ~ contains "-->" s) by (inversion W; auto).
    destruct C as [C1 [C2 C3]].
    assert (B : body 0 (XComment s) +++ r = "<!--" +++ s +++ "-->" +++ r).
    { cbn [body print_node indent]. rewrite c_str_id by exact C1. cbn [String.append].
      rewrite sapp_assoc. reflexivity. }
    rewrite B. cbn [String.append].
    change (identify _) with KComment. cbv iota.
    apply parse_comment_print; assumption.
Qed.

Definition top_node (x : xnode) : Prop := writable x /\ is_text x = false.

Lemma print_doc_cons : forall x l, top_node x -> print_doc (x :: l) = body 0 x +++ nls +++ print_doc l.
Proof. intros x l [W T]. cbn [print_doc]. rewrite print_node_body by assumption. reflexivity. Qed.

Lemma doc_loop_print : forall l m, Forall top_node l -> (String.length (print_doc l) < m)%nat ->
  doc_loop m EncUnknown (SkipWhiteSpace EncUnknown (Some (nls +++ print_doc l))) = POk (l, false).
Proof.
  induction l as [|x l IH]; intros m F L.
  - destruct m; [lia|]. reflexivity.
  - assert (Tx : top_node x) by (inversion F; assumption).
    assert (Fl : Forall top_node l) by (inversion F; assumption).
    rewrite print_doc_cons in * by exact Tx. destruct Tx as [W T].
    destruct (body_head x 0 W T) as [t [E _]].
    assert (S : SkipWhiteSpace EncUnknown (Some (nls +++ body 0 x +++ nls +++ print_doc l)) =
                Some (body 0 x +++ nls +++ print_doc l)).
    { rewrite E. reflexivity. }
    rewrite S. destruct m; [lia|]. cbn [doc_loop].
    assert (HD : body 0 x +++ nls +++ print_doc l = String ltc (t +++ nls +++ print_doc l)) by (rewrite E; reflexivity).
    rewrite HD, (ceqb_refl ltc). cbn [negb]. rewrite <- HD, parse_node_print by assumption.
    cbn [pbind].
    assert (NE : next_enc EncUnknown x = EncUnknown) by (destruct x; try reflexivity; inversion W).
    rewrite NE, IH; auto. rewrite !slen_app in L. cbn in L. rewrite E in L. cbn in L. lia.
Qed.

Lemma load_print : forall l, l <> [] -> Forall top_node l -> LoadFile (print_doc l) = POk (l, true).
Proof.
  intros [|x l] NE F; [contradiction|].
  assert (Tx : top_node x) by (inversion F; assumption).
  pose proof Tx as [W T]. destruct (body_head x 0 W T) as [t [E _]].
  unfold LoadFile, parse_doc.
  assert (HD : print_doc (x :: l) = String ltc (t +++ nls +++ print_doc l)).
  { rewrite print_doc_cons by exact Tx. rewrite E. reflexivity. }
  assert (S0 : String.eqb (print_doc (x :: l)) "" = false) by (rewrite HD; reflexivity).
  rewrite S0.
  assert (SE : start_enc (print_doc (x :: l)) = EncUnknown).
  { rewrite HD. unfold start_enc. destruct (t +++ nls +++ print_doc l) as [|c1 [|c2 u]]; reflexivity. }
  rewrite SE.
  assert (SK : SkipWhiteSpace EncUnknown (Some (print_doc (x :: l))) = Some (print_doc (x :: l))).
  { rewrite HD. reflexivity. }
  rewrite SK.
  assert (DL := doc_loop_print (x :: l) (S (String.length (print_doc (x :: l)))) F ltac:(lia)).
  assert (SK2 : SkipWhiteSpace EncUnknown (Some (nls +++ print_doc (x :: l))) = Some (print_doc (x :: l))).
  { rewrite HD. reflexivity. }
  rewrite SK2 in DL. rewrite DL. reflexivity.
Qed.
