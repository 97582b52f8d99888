(** Values that do not survive, files that cannot be read, and files read only in part. *)
From Coq Require Import ZArith List String Ascii Bool Lia Arith.
From Verif Require Import Base XmlModel XmlSpec XmlProofs XmlProofs2.
Import ListNotations.
Open Scope Z_scope.

(** ** The root element *)

Lemma ident_elem : forall n r, xml_name n -> identify ("<" +++ n +++ r) = KElem.
Proof.
  intros n r X. pose proof (body_ident n [] [] 0 (r) X) as H. 
  unfold identify in *. cbn [body String.append] in H. rewrite name_cstr in H by exact X.
  destruct X as [c [t [-> [Hs _]]]]. cbn [String.append] in *.
  assert (Q1 : StringEqualNoCase (String "<" (String c (t +++ r))) "<?xml" = false).
  { cbn [StringEqualNoCase] in *. change (ceqb (ToLower "<") (ToLower "<")) with true in *. cbv iota in *.
    destruct (ceqb (ToLower c) (ToLower "?")) eqn:E; [|reflexivity].
    exfalso. apply ceqb_true in E. unfold ToLower in E. change ((65 <=? byte "?") && (byte "?" <=? 90)) with false in E.
    cbv iota in E. unfold start_byte in Hs. destruct ((65 <=? byte c) && (byte c <=? 90)) eqn:E2.
    - apply (f_equal byte) in E. change (byte "?") with 63 in E. unfold byte, chr in E.
      rewrite N_ascii_embedding in E.
      + apply andb_true_iff in E2. rewrite !Z.leb_le in E2. fold (byte c) in E.
        rewrite Z.mod_small in E by lia. lia.
      + fold (byte c). pose proof (Z.mod_pos_bound (byte c + 32) 256). lia.
    - subst c. cbv in Hs. intuition congruence. }
  rewrite Q1.
  assert (Q2 : ceqb "!" c = false).
  { apply ceqb_false. intros <-. cbv in Hs. intuition congruence. }
  unfold StringEqual. cbn [strip]. change (ceqb "<" "<") with true. cbv iota. rewrite Q2.
  rewrite start_byte_alpha by exact Hs. reflexivity.
Qed.

Definition elem_fuel' (s : string) : nat := (2 * String.length s + 1)%nat.

Lemma load_root : forall n d u, xml_name n -> name_char d = false ->
  LoadFile ("<" +++ n +++ String d u) =
  pbind (pbind (parse_attrs (S (S (String.length u))) EncUnknown [] (Some (String d u))) (fun '(attrs, en) =>
         match en with
         | AFail er => POk (XElem n attrs [], None, er)
         | AEmpty r => POk (XElem n attrs [], Some r, false)
         | AOpen r =>
             pbind (read_value (elem_fuel' ("<" +++ n +++ String d u)) EncUnknown (SkipWhiteSpace EncUnknown (Some r)))
               (fun '(ch, q, er) =>
                match q with
                | None | Some EmptyString => POk (XElem n attrs ch, None, er)
                | Some s2 =>
                    match strip ("</" +++ n +++ ">") s2 with
                    | Some r2 => POk (XElem n attrs ch, Some r2, er)
                    | None => POk (XElem n attrs ch, None, true)
                    end
                end)
         end))
        (fun '(x, q, er) =>
         pbind (doc_loop (String.length ("<" +++ n +++ String d u)) EncUnknown (SkipWhiteSpace EncUnknown q))
           (fun '(l, er2) => POk (x :: l, negb (er || er2)))).
Proof.
  intros n d u X N. set (s := "<" +++ n +++ String d u).
  assert (ES : s = String "<" (n +++ String d u)) by reflexivity.
  destruct (name_start_not_space n X) as [c [t [E [W _]]]].
  unfold LoadFile. replace (String.eqb s "") with false by (rewrite ES; reflexivity).
  unfold parse_doc.
  assert (SE : start_enc s = EncUnknown).
  { rewrite ES. unfold start_enc. destruct (n +++ String d u) as [|c1 [|c2 v]]; reflexivity. }
  rewrite SE. rewrite ES at 1. change (SkipWhiteSpace EncUnknown (Some (String "<" (n +++ String d u)))) with (Some (String "<" (n +++ String d u))).
  cbv iota beta. rewrite <- ES. cbn [doc_loop]. rewrite ES at 1. cbv iota.
  change (negb (ceqb "<" ltc)) with false. cbv iota.
  unfold parse_node. unfold s at 1. rewrite ident_elem by exact X.
  replace (elem_fuel s) with (S (elem_fuel' s)) by (unfold elem_fuel, elem_fuel'; lia).
  cbn [parse_elem]. rewrite ES at 1. 
  change (SkipWhiteSpace EncUnknown (Some (String "<" (n +++ String d u)))) with (Some (String "<" (n +++ String d u))).
  cbv iota. change (negb (ceqb "<" ltc)) with false. cbv iota.
  assert (S1 : SkipWhiteSpace EncUnknown (Some (n +++ String d u)) = Some (n +++ String d u)).
  { rewrite E. cbn [String.append]. apply skip_id; [discriminate | exact W]. }
  rewrite S1, ReadName_app by assumption. cbv iota beta. cbn [String.length].
  destruct (parse_attrs (S (S (String.length u))) EncUnknown [] (Some (String d u))) as [[attrs en]| |]; try reflexivity.
  cbn [pbind].
  destruct en as [r|r|er].
  - cbn [pbind]. cbn [next_enc]. destruct (doc_loop _ _ _) as [[l er2]| |]; try reflexivity. cbn [pbind].
    rewrite orb_false_r. reflexivity.
  - destruct (read_value _ _ _) as [[[ch q] er]| |]; try reflexivity. cbn [pbind].
    destruct q as [[|c2 s2]|].
    + cbn [pbind next_enc]. destruct (doc_loop _ _ _) as [[l er2]| |]; try reflexivity. cbn [pbind].
      rewrite orb_false_r. reflexivity.
    + destruct (strip _ _); cbn [pbind next_enc]; destruct (doc_loop _ _ _) as [[l er2]| |]; try reflexivity; cbn [pbind].
      rewrite orb_false_r. reflexivity.
    + cbn [pbind next_enc]. destruct (doc_loop _ _ _) as [[l er2]| |]; try reflexivity. cbn [pbind].
      rewrite orb_false_r. reflexivity.
  - cbn [pbind next_enc]. destruct (doc_loop _ _ _) as [[l er2]| |]; try reflexivity. cbn [pbind].
    rewrite orb_false_r. reflexivity.
Qed.

Lemma load_attrs_ub : forall n d u, xml_name n -> name_char d = false ->
  parse_attrs (S (S (String.length u))) EncUnknown [] (Some (String d u)) = PUB ->
  LoadFile ("<" +++ n +++ String d u) = PUB.
Proof. intros n d u X N H. rewrite load_root by assumption. rewrite H. reflexivity. Qed.

Lemma doc_loop_none : forall m e, doc_loop (S m) e None = POk ([], false).
Proof. reflexivity. Qed.

Lemma load_attrs_empty : forall n d u a, xml_name n -> name_char d = false ->
  parse_attrs (S (S (String.length u))) EncUnknown [] (Some (String d u)) = POk (a, AEmpty nls) ->
  LoadFile ("<" +++ n +++ String d u) = POk ([XElem n a []], true).
Proof.
  intros n d u a X N H. rewrite load_root by assumption. rewrite H. cbn [pbind].
  change (SkipWhiteSpace EncUnknown (Some nls)) with (Some ""%string).
  cbn [String.append String.length doc_loop pbind]. reflexivity.
Qed.

Lemma load_attrs_fail : forall n d u a, xml_name n -> name_char d = false ->
  parse_attrs (S (S (String.length u))) EncUnknown [] (Some (String d u)) = POk (a, AFail false) ->
  LoadFile ("<" +++ n +++ String d u) = POk ([XElem n a []], true).
Proof.
  intros n d u a X N H. rewrite load_root by assumption. rewrite H. reflexivity.
Qed.

Lemma load_attrs_open : forall n d u a r ch, xml_name n -> name_char d = false ->
  parse_attrs (S (S (String.length u))) EncUnknown [] (Some (String d u)) = POk (a, AOpen r) ->
  read_value (elem_fuel' ("<" +++ n +++ String d u)) EncUnknown (SkipWhiteSpace EncUnknown (Some r)) =
    POk (ch, Some ""%string, false) ->
  LoadFile ("<" +++ n +++ String d u) = POk ([XElem n a ch], true).
Proof.
  intros n d u a r ch X N H R. rewrite load_root by assumption. rewrite H. cbn [pbind]. rewrite R. reflexivity.
Qed.

(** ** One attribute *)

Lemma parse_attr_quoted : forall k q s, xml_name k -> q = quot \/ q = apos ->
  parse_attr EncUnknown (Some (k +++ "=" +++ String q s)) =
  pbind (read_quoted EncUnknown q s) (fun '(v, r) => POk (k, v, r, false)).
Proof.
  intros k q s X Q. destruct (name_start_not_space k X) as [c [t [E [W _]]]].
  unfold parse_attr. cbn [String.append].
  assert (S : SkipWhiteSpace EncUnknown (Some (k +++ String "=" (String q s))) = Some (k +++ String "=" (String q s))).
  { rewrite E. cbn [String.append]. apply skip_id; [discriminate | exact W]. }
  rewrite S. rewrite ReadName_app by (auto; reflexivity). rewrite E. cbn [String.append].
  rewrite skip_id by (try discriminate; reflexivity).
  rewrite (ceqb_refl "="%char).
  rewrite skip_id by (try discriminate; destruct Q as [->| ->]; reflexivity).
  replace (ceqb q apos || ceqb q quot) with true
    by (symmetry; apply orb_true_iff; rewrite !ceqb_true; tauto).
  reflexivity.
Qed.

Lemma attrs_first : forall k m acc s, xml_name k ->
  parse_attrs (S m) EncUnknown acc (Some (" " +++ k +++ s)) =
  pbind (parse_attr EncUnknown (Some (k +++ s))) (fun '(name, v, q, err) =>
    match q with
    | None | Some EmptyString => POk (acc, AFail true)
    | Some _ =>
        match find_attr (c_str name) acc with
        | Some _ => POk (replace_attr (c_str name) (c_str v) acc, AFail false)
        | None => parse_attrs m EncUnknown (acc ++ [(name, v)]) q
        end
    end).
Proof.
  intros k m acc s X. destruct (name_start_not_space k X) as [c [t [E [W [N1 N2]]]]].
  cbn [parse_attrs String.append]. rewrite skip_space by reflexivity. rewrite E. cbn [String.append skip_ws].
  rewrite W.
  replace (ceqb c "/") with false by (symmetry; apply ceqb_false; exact N1).
  replace (ceqb c gtc) with false by (symmetry; apply ceqb_false; exact N2).
  reflexivity.
Qed.

(** plain bytes are read as they are *)
Lemma read_keep_plain : forall v q s n, (String.length v <= n)%nat ->
  ~ contains_byte amp v -> ~ contains_byte q v ->
  read_keep n EncUnknown (String q "") (Some (v +++ s)) =
  pbind (read_keep (n - String.length v) EncUnknown (String q "") (Some s)) (fun '(u, st) => POk (v +++ u, st)).
Proof.
  induction v as [|c v IH]; intros q s n L A Q.
  - cbn [String.append String.length]. replace (n - 0)%nat with n by lia.
    destruct (read_keep n EncUnknown (String q "") (Some s)) as [[u st]| |]; reflexivity.
  - destruct n; [cbn in L; lia|]. cbn [String.append read_keep String.length].
    assert (A2 : ~ contains_byte amp v) by (intros C; apply A; apply contains_byte_cons; exact C).
    assert (Q2 : ~ contains_byte q v) by (intros C; apply Q; apply contains_byte_cons; exact C).
    assert (N : c <> amp) by (intros ->; apply A; apply contains_byte_here).
    assert (NQ : ceqb q c = false) by (apply ceqb_false; intros ->; apply Q; apply contains_byte_here).
    cbn [strip]. rewrite NQ. rewrite getchar_plain by exact N. cbn [pbind].
    rewrite IH by (auto; cbn in L; lia). cbn [Nat.sub].
    destruct (read_keep (n - String.length v) EncUnknown (String q "") (Some s)) as [[u st]| |]; reflexivity.
Qed.

Lemma read_keep_escaped : forall v q s n, (String.length v <= n)%nat -> q = quot \/ q = apos ->
  read_keep n EncUnknown (String q "") (Some (esc v +++ s)) =
  pbind (read_keep (n - String.length v) EncUnknown (String q "") (Some s)) (fun '(u, st) => POk (v +++ u, st)).
Proof.
  induction v as [|c v IH]; intros q s n L Q.
  - cbn [esc String.append String.length]. replace (n - 0)%nat with n by lia.
    destruct (read_keep n EncUnknown (String q "") (Some s)) as [[u st]| |]; reflexivity.
  - destruct n; [cbn in L; lia|]. cbn [esc]. rewrite sapp_assoc.
    destruct (esc1_head c) as [d [t [E [N1 [N2 N3]]]]].
    cbn [read_keep String.length].
    assert (S : strip (String q "") (esc1 c +++ esc v +++ s) = None).
    { rewrite E. cbn. replace (ceqb q d) with false; [reflexivity|]. symmetry. apply ceqb_false.
      destruct Q; congruence. }
    rewrite S, getchar_esc1. rewrite E. cbn [String.append pbind].
    rewrite IH by (auto; cbn in L; lia). cbn [Nat.sub].
    destruct (read_keep (n - String.length v) EncUnknown (String q "") (Some s)) as [[u st]| |]; reflexivity.
Qed.

(** ** C41: files that cannot be read *)

Lemma open_quote_undefined : forall n k q v, xml_name n -> xml_name k -> q = quot \/ q = apos ->
  ~ contains_byte amp v -> ~ contains_byte q v ->
  LoadFile ("<" +++ n +++ " " +++ k +++ "=" +++ String q v) = PUB.
Proof.
  intros n k q v X K Q A N. cbn [String.append].
  apply load_attrs_ub; [exact X | reflexivity|].
  change (String " " (k +++ String "=" (String q v))) with (" " +++ k +++ "=" +++ String q v).
  rewrite attrs_first by exact K. rewrite parse_attr_quoted by assumption.
  unfold read_quoted, ReadText. cbn [plen].
  rewrite <- (sapp_nil_r v) at 2. rewrite read_keep_plain; [|lia|assumption|assumption].
  replace (S (String.length v) - String.length v)%nat with 1%nat by lia. reflexivity.
Qed.

Lemma read_keep_open_comment : forall v n, ~ contains_byte amp v -> ~ contains "-->" v ->
  (String.length v < n)%nat ->
  read_keep n EncUnknown "-->" (Some v) = POk (v, AtEnd).
Proof.
  induction v as [|c v IH]; intros n A C L; (destruct n; [lia|]).
  - reflexivity.
  - cbn [read_keep].
    assert (A2 : ~ contains_byte amp v) by (intros Q; apply A; apply contains_byte_cons; exact Q).
    assert (C2 : ~ contains "-->" v) by (intros Q; apply C; apply contains_cons; exact Q).
    assert (N : c <> amp) by (intros ->; apply A; apply contains_byte_here).
    destruct (strip "-->" (String c v)) eqn:S.
    + exfalso. apply strip_some in S. apply C. exists ""%string, s. exact S.
    + rewrite getchar_plain by exact N. cbn [pbind]. rewrite IH; auto. cbn in L. lia.
Qed.

Lemma open_comment_undefined : forall v, ~ contains_byte amp v -> ~ contains "-->" v ->
  LoadFile ("<!--" +++ v) = PUB.
Proof.
  intros v A C. unfold LoadFile. cbn [String.append String.eqb].
  unfold parse_doc. change (start_enc (String "<" (String "!" (String "-" (String "-" v))))) with EncUnknown.
  cbv iota beta.
  change (SkipWhiteSpace EncUnknown (Some (String "<" (String "!" (String "-" (String "-" v))))))
    with (Some (String "<" (String "!" (String "-" (String "-" v))))).
  cbv iota. generalize (String.length (String "<" (String "!" (String "-" (String "-" v))))). intros m.
  cbn [doc_loop]. change (negb (ceqb "<" ltc)) with false. cbv iota.
  unfold parse_node. change (identify _) with KComment. cbv iota. unfold parse_comment, ReadText.
  cbn [drop plen]. rewrite read_keep_open_comment by (auto; lia). reflexivity.
Qed.

Lemma split_semi_none : forall s, ~ contains_byte semi s -> split_semi s = None.
Proof.
  induction s; intros H; cbn; [reflexivity|].
  replace (ceqb a semi) with false.
  - rewrite IHs; [reflexivity|]. intros C. apply H. apply contains_byte_cons. exact C.
  - symmetry. apply ceqb_false. intros ->. apply H. apply contains_byte_here.
Qed.

Lemma broken_reference_undefined : forall n k q v r, xml_name n -> xml_name k -> q = quot \/ q = apos ->
  ~ contains_byte amp v -> ~ contains_byte q v -> ~ contains_byte semi r -> r <> ""%string ->
  LoadFile ("<" +++ n +++ " " +++ k +++ "=" +++ String q (v +++ "&#" +++ r)) = PUB.
Proof.
  intros n k q v r X K Q A N R NE. cbn [String.append].
  apply load_attrs_ub; [exact X | reflexivity|].
  change (String " " (k +++ String "=" (String q (v +++ String "&" (String "#" r)))))
    with (" " +++ k +++ "=" +++ String q (v +++ "&#" +++ r)).
  rewrite attrs_first by exact K. rewrite parse_attr_quoted by assumption.
  unfold read_quoted, ReadText. cbn [plen].
  rewrite read_keep_plain; [|rewrite slen_app; lia|assumption|assumption].
  rewrite slen_app.
  replace (S (String.length v + String.length ("&#" +++ r)) - String.length v)%nat
    with (S (S (S (String.length r))))
    by (change (String.length ("&#" +++ r)) with (S (S (String.length r))); lia).
  cbn [String.append read_keep strip].
  assert (NQ : ceqb q "&" = false) by (apply ceqb_false; destruct Q as [->| ->]; discriminate).
  rewrite NQ.
  assert (G : GetChar EncUnknown (String "&" (String "#" r)) = POk (""%string, None)).
  { unfold GetChar. cbn [is_utf8]. change (1 =? 1) with true. cbv iota.
    change (ceqb "&" amp) with true. cbv iota. destruct r as [|c r]; [contradiction|].
    cbn [GetEntity]. change (ceqb "#" "#") with true. cbv iota.
    destruct (ceqb c "x") eqn:E.
    - destruct r as [|c2 r2]; [reflexivity|]. rewrite split_semi_none; [reflexivity|].
      intros C. apply R. apply contains_byte_cons. exact C.
    - rewrite split_semi_none by exact R. reflexivity. }
  rewrite G. reflexivity.
Qed.

(** ** C31: values *)

Lemma NoDup_app_cons_end : forall (l : list string) k, NoDup l -> ~ In k l -> NoDup (l ++ [k]).
Proof.
  induction l; intros k N I; cbn; [constructor; [intros [] | constructor]|].
  inversion N; subst. constructor.
  - intros Q. apply in_app_or in Q. destruct Q as [Q|[Q|[]]]; [contradiction|]. subst. apply I. left. reflexivity.
  - apply IHl; [assumption|]. intros Q. apply I. right. exact Q.
Qed.

Lemma attribute_kept : forall n k v a, xml_name n -> xml_name k -> no_nul v -> charref_free v ->
  (forall k' v', In (k', v') a -> xml_name k' /\ no_nul v' /\ charref_free v') -> NoDup (map fst a) ->
  exists a', LoadFile (print_doc [XElem n (SetAttribute k v a) []]) = POk ([XElem n a' []], true) /\
    Attribute k a' = Some v /\
    forall k', k' <> k -> Attribute k' a' = Attribute k' a.
Proof.
  intros n k v a X K NV CV A ND. exists (SetAttribute k v a).
  assert (KC : c_str k = k) by (apply name_cstr; exact K).
  assert (VC : c_str v = v) by (apply c_str_id; exact NV).
  assert (IN : forall l k' v', In (k', v') (replace_attr k v l) -> (k' = k /\ v' = v) \/ In (k', v') l).
  { induction l as [|[x y] l IH]; cbn; [tauto|]. intros k' v'. destruct (String.eqb_spec x k).
    - intros [E|E]; [injection E as <- <-; subst; auto | auto].
    - intros [E|E]; [auto|]. apply IH in E. tauto. }
  assert (FST : forall l, map fst (replace_attr k v l) = map fst l).
  { induction l as [|[x y] l IH]; cbn; [reflexivity|]. destruct (String.eqb_spec x k); cbn; congruence. }
  split; [|split].
  - rewrite load_print; [reflexivity | discriminate|]. constructor; [|constructor]. split; [|reflexivity].
    constructor; auto.
    + intros k' v' I. unfold SetAttribute in I. rewrite KC, VC in I.
      destruct (find_attr k a).
      * apply IN in I. destruct I as [[-> ->]|I]; auto.
      * apply in_app_or in I. destruct I as [I|[I|[]]]; auto. injection I as <- <-. auto.
    + unfold SetAttribute. rewrite KC, VC. destruct (find_attr k a) eqn:F.
      * rewrite FST. exact ND.
      * rewrite map_app. cbn. apply NoDup_app_cons_end; [exact ND|].
        intros I. apply in_map_iff in I. destruct I as [[x y] [E I]]. cbn in E. subst x.
        clear - F I. induction a as [|[x z] a IH]; [destruct I|]. cbn in F.
        destruct (String.eqb_spec x k); [discriminate|]. destruct I as [I|I]; [congruence | auto].
    + intros x [].
    + exact I.
  - unfold Attribute, SetAttribute. rewrite KC, VC.
    assert (F1 : forall l, find_attr k l <> None -> find_attr k (replace_attr k v l) = Some v).
    { induction l as [|[x y] l IH]; cbn; [congruence|]. destruct (String.eqb_spec x k); cbn.
      - subst. rewrite String.eqb_refl. reflexivity.
      - destruct (String.eqb_spec x k); [contradiction | exact IH]. }
    assert (F2 : forall l, find_attr k l = None -> find_attr k (l ++ [(k, v)]) = Some v).
    { induction l as [|[x y] l IH]; cbn; [rewrite String.eqb_refl; reflexivity|].
      destruct (String.eqb_spec x k); [discriminate | exact IH]. }
    destruct (find_attr k a) eqn:F; [rewrite F1 by congruence | rewrite F2 by exact F]; cbn; rewrite VC; reflexivity.
  - intros k' NE. unfold Attribute, SetAttribute. rewrite KC, VC. f_equal.
    assert (F1 : forall l, find_attr k' (replace_attr k v l) = find_attr k' l).
    { induction l as [|[x y] l IH]; cbn; [reflexivity|]. destruct (String.eqb_spec x k); cbn.
      - destruct (String.eqb_spec x k'); [congruence | reflexivity].
      - destruct (String.eqb_spec x k'); [reflexivity | exact IH]. }
    assert (F2 : forall l, find_attr k' (l ++ [(k, v)]) = find_attr k' l).
    { induction l as [|[x y] l IH]; cbn.
      - destruct (String.eqb_spec k k'); [congruence | reflexivity].
      - destruct (String.eqb_spec x k'); [reflexivity | exact IH]. }
    destruct (find_attr k a); auto.
Qed.

Lemma put_reference : forall h r, h <> ""%string -> ~ contains_byte semi h ->
  put_string true (h +++ String ";" r) = h +++ put_string false (String ";" r).
Proof.
  induction h as [|c h IH]; intros r NE N; [contradiction|]. cbn [String.append put_string].
  assert (NT : String.eqb (h +++ String ";" r) "" = false) by (destruct h; reflexivity).
  rewrite NT. cbn [andb negb]. f_equal.
  destruct h as [|c2 h].
  - reflexivity.
  - assert (F : first_is semi (String c2 h +++ String ";" r) = false).
    { cbn [first_is String.append]. apply ceqb_false. intros E. apply N. subst c2. apply contains_byte_cons. apply contains_byte_here. }
    rewrite F. cbn [negb]. apply IH; [discriminate|]. intros C. apply N. apply contains_byte_cons. exact C.
Qed.

Lemma put_prefix : forall v s, charref_free v ->
  put_string false (v +++ String amp s) = esc v +++ put_string false (String amp s).
Proof.
  induction v as [|c v IH]; intros s C; [reflexivity|].
  cbn [String.append esc]. cbn [put_string]. cbn [andb].
  assert (T : charref_free v) by (intros Q; apply C; apply contains_cons; exact Q).
  assert (B : ceqb c amp && StringEqual (v +++ String amp s) "#x" = false).
  { destruct (ceqb c amp) eqn:E; [|reflexivity]. apply ceqb_true in E. subst c. cbn [andb].
    unfold StringEqual. destruct (strip "#x" (v +++ String amp s)) eqn:S; [|reflexivity]. exfalso.
    apply strip_some in S. destruct v as [|a [|b v]]; cbn in S.
    - discriminate.
    - injection S as _ S. discriminate.
    - injection S as -> -> _. apply C. exists ""%string, v. reflexivity. }
  rewrite B, IH by exact T. rewrite sapp_assoc. reflexivity.
Qed.

Lemma hex_no_semi : forall h, all_bytes hex_byte h -> ~ contains_byte semi h.
Proof. intros h H. eapply no_semi_in; [exact H | unfold hex_byte; lia]. Qed.

Lemma c_str_plain : forall h, all_bytes hex_byte h -> c_str h = h.
Proof.
  intros h H. apply c_str_id. intros c C. apply H in C. unfold hex_byte in C. lia.
Qed.

Lemma put_amp : forall t, put_string false (String amp (String "#" (String "x" t))) =
  String amp (put_string true (String "#" (String "x" t))).
Proof. reflexivity. Qed.

Lemma put_semi : forall t, put_string false (String ";" t) = String ";" (put_string false t).
Proof. reflexivity. Qed.

(** a value with a complete hexadecimal reference comes back with one character in its place *)
Lemma reference_decoded : forall n k v h r, xml_name n -> xml_name k ->
  no_nul v -> no_nul r -> charref_free v -> charref_free r -> h <> ""%string -> all_bytes hex_byte h ->
  exists c, LoadFile (print_doc [XElem n [(k, v +++ "&#x" +++ h +++ ";" +++ r)] []]) =
              POk ([XElem n [(k, v +++ String c r)] []], true).
Proof.
  intros n k v h r X K NV NR CV CR NE H.
  destruct (hex_scan_some (srev h "") 1 0) as [u U]; [apply srev_bytes; [exact H | apply all_bytes_nil]|].
  exists (chr u).
  set (val := v +++ "&#x" +++ h +++ ";" +++ r).
  assert (HS := hex_no_semi h H).
  assert (PE : PutString val = esc v +++ "&#x" +++ h +++ ";" +++ esc r).
  { unfold PutString, val. cbn [String.append]. change "&"%char with amp. rewrite put_prefix by exact CV. f_equal.
    rewrite put_amp. f_equal.
    change (String "#" (String "x" (h +++ String ";" r))) with (("#x" +++ h) +++ String ";" r).
    rewrite put_reference.
    - rewrite put_semi, put_esc by exact CR. cbn [String.append]. reflexivity.
    - discriminate.
    - intros C. apply contains_byte_inv in C. destruct C as [C|C]; [discriminate|].
      apply contains_byte_inv in C. destruct C as [C|C]; [discriminate|]. exact (HS C). }
  assert (CP : c_str (PutString val) = PutString val).
  { rewrite PE. rewrite c_str_app by apply c_str_esc. f_equal.
    rewrite c_str_app by reflexivity. f_equal. rewrite c_str_app by (apply c_str_plain; exact H). f_equal.
    rewrite c_str_app by reflexivity. f_equal. apply c_str_esc. }
  set (q := if has_char quot val then apos else quot).
  assert (Q : q = quot \/ q = apos) by (unfold q; destruct (has_char quot val); auto).
  assert (PA : print_attr (k, val) = k +++ "=" +++ String q (esc v +++ "&#x" +++ h +++ ";" +++ esc r +++ String q "")).
  { unfold print_attr. cbn [fst snd]. fold q. rewrite CP, PE.
    rewrite (c_str_PutString k) by (apply name_charref_free, xml_name_bytes; exact K).
    rewrite esc_name by (apply xml_name_bytes; exact K). cbn [String.append]. rewrite ?sapp_assoc.
    cbn [String.append]. rewrite ?sapp_assoc. reflexivity. }
  cbn [print_doc print_node indent print_attrs]. rewrite PA. rewrite name_cstr by exact X.
  cbn [String.append]. rewrite ?sapp_assoc. cbn [String.append]. rewrite ?sapp_assoc. cbn [String.append].
  rewrite ?sapp_assoc. cbn [String.append]. rewrite ?sapp_assoc. cbn [String.append]. rewrite ?sapp_assoc. cbn [String.append].
  match goal with |- LoadFile (String "<" (n +++ String " " ?x)) = _ =>
    change (String "<" (n +++ String " " x)) with ("<" +++ n +++ String " " x) end.
  apply load_attrs_empty; [exact X | reflexivity|].
  match goal with |- context [Some (String " " (k +++ ?x))] =>
    change (String " " (k +++ x)) with (" " +++ k +++ x) end.
  rewrite attrs_first by exact K.
  match goal with |- context [parse_attr EncUnknown (Some (k +++ String "=" ?x))] =>
    change (k +++ String "=" x) with (k +++ "=" +++ x) end.
  rewrite parse_attr_quoted by assumption.
  unfold read_quoted, ReadText. cbn [plen].
  match goal with |- context [read_keep ?m] => set (fu := m) end.
  assert (LV : forall x, (String.length x <= String.length (esc x))%nat).
  { induction x as [|a x IHx]; cbn; [lia|]. rewrite slen_app. destruct (esc1_head a) as [d0 [t0 [E0 _]]].
    rewrite E0. cbn. lia. }
  assert (FU : (String.length v + 1 + String.length (esc r) + 1 < fu)%nat).
  { unfold fu. rewrite !slen_app. cbn [String.length]. rewrite !slen_app. cbn [String.length]. rewrite !slen_app. cbn [String.length].
    specialize (LV v). lia. }
  rewrite read_keep_escaped by (auto; lia).
  remember (fu - String.length v)%nat as f2. destruct f2 as [|f2]; [lia|].
  cbn [read_keep strip].
  assert (NQ : ceqb q "&" = false) by (apply ceqb_false; destruct Q as [->| ->]; discriminate).
  rewrite NQ.
  assert (G : GetChar EncUnknown (String "&" (String "#" (String "x" (h +++ String ";" (esc r +++ String q (String " " (String "/" (String ">" nls)))))))) =
              POk (String (chr u) "", Some (esc r +++ String q (String " " (String "/" (String ">" nls)))))).
  { unfold GetChar. cbn [is_utf8]. change (1 =? 1) with true. cbv iota.
    change (ceqb "&" amp) with true. cbv iota. cbn [GetEntity]. change (ceqb "#" "#") with true.
    change (ceqb "x" "x") with true. cbv iota.
    destruct h as [|h0 h']; [contradiction|].
    change (String h0 h' +++ String ";" (esc r +++ String q (String " " (String "/" (String ">" nls)))))
      with (String h0 h' +++ ";" +++ (esc r +++ String q (String " " (String "/" (String ">" nls))))).
    rewrite split_semi_app by exact HS. cbn [String.append]. rewrite U. reflexivity. }
  change (nls +++ "") with nls. rewrite G. cbn [pbind]. assert (LVr := LV r).
  rewrite read_keep_escaped by (auto; lia).
  remember (f2 - String.length r)%nat as f3. specialize (LV r). destruct f3 as [|f3]; [lia|].
  cbn [read_keep strip]. rewrite ceqb_refl. cbn [pbind]. rewrite sapp_nil_r.
  cbn [find_attr c_str]. 
  cbn [String.append]. cbn [app find_attr].
  match goal with |- parse_attrs ?m _ _ _ = _ => destruct m eqn:M end.
  { cbn in M. rewrite slen_app in M. cbn in M. lia. }
  reflexivity.
Qed.

Lemma reference_lost : forall v h r c, h <> ""%string ->
  v +++ String c r <> v +++ "&#x" +++ h +++ ";" +++ r.
Proof.
  intros v h r c H E. apply (f_equal String.length) in E. rewrite !slen_app in E.
  cbn [String.length] in E. lia.
Qed.

(** ** Files read only in part *)

Lemma repeated_attribute_root : forall n k v w r, xml_name n -> xml_name k ->
  no_nul v -> no_nul w -> charref_free v -> charref_free w -> r <> ""%string ->
  LoadFile ("<" +++ n +++ " " +++ print_attr (k, v) +++ " " +++ print_attr (k, w) +++ r) =
    POk ([XElem n [(k, w)] []], true).
Proof.
  intros n k v w r X K NV NW CV CW NE. cbn [String.append].
  apply load_attrs_fail; [exact X | reflexivity|].
  destruct (name_start_not_space k K) as [c [t [E H]]].
  rewrite parse_attrs_step with (q := String " " (print_attr (k, w) +++ r)) (name := k) (v := v).
  - cbn [app].
    assert (PW := parse_attr_print k w r K CW).
    destruct (print_attr_eq k w K CW) as [q [Q PE]]. rewrite PE in *. rewrite !sapp_assoc in *.
    change (String " " (k +++ String "=" (String q (esc w +++ String q "")) +++ r))
      with (" " +++ k +++ (String "=" (String q (esc w +++ String q "")) +++ r)).
    rewrite attrs_first by exact K. rewrite PW. cbn [pbind]. destruct r as [|r0 r]; [contradiction|].
    rewrite name_cstr by exact K. cbn [find_attr replace_attr]. rewrite String.eqb_refl.
    rewrite c_str_id by exact NW. reflexivity.
  - rewrite parse_attr_print by assumption. reflexivity.
  - discriminate.
  - destruct (print_attr_eq k v K CV) as [q [Q PE]]. rewrite PE. rewrite E. cbn [String.append].
    eexists; eexists; split; [reflexivity | exact H].
  - reflexivity.
Qed.

Definition no_text (x : xnode) : Prop := is_text x = false.

Lemma print_children_app : forall d a b, print_children d (a ++ b) = print_children d a +++ print_children d b.
Proof. induction a; intros b; cbn [app print_children]; [reflexivity|]. rewrite IHa, !sapp_assoc. reflexivity. Qed.

Lemma read_value_cut : forall l m,
  (forall x, In x l -> writable x /\ is_text x = false) ->
  (2 * String.length (print_children 1 l +++ nls) + 1 <= m)%nat ->
  read_value m EncUnknown (Some (skip_ws (print_children 1 l +++ nls))) = POk (l, Some ""%string, false).
Proof.
  induction l as [|x l IH]; intros m W L.
  - destruct m; [cbn in L; lia|]. reflexivity.
  - destruct (W x (or_introl eq_refl)) as [Wx Tx].
    assert (Wl : forall y, In y l -> writable y /\ is_text y = false) by (intros y Y; apply W; right; exact Y).
    set (rest := print_children 1 l +++ nls) in *.
    assert (ER : print_children 1 (x :: l) +++ nls = nls +++ print_node 1 x +++ rest).
    { cbn [print_children]. rewrite Tx, !sapp_assoc. reflexivity. }
    rewrite ER in *. clear ER. rewrite !slen_app in L.
    rewrite print_node_body by assumption. rewrite !sapp_assoc.
    rewrite skip_ws_app by reflexivity. rewrite skip_ws_app by apply indent_ws.
    destruct (body_head x 1 Wx Tx) as [t [E SE]]. specialize (SE rest).
    assert (SK : skip_ws (body 1 x +++ rest) = body 1 x +++ rest) by (rewrite E; reflexivity).
    rewrite SK. destruct m; [lia|]. cbn [read_value].
    assert (HD : body 1 x +++ rest = String ltc (t +++ rest)) by (rewrite E; reflexivity).
    rewrite HD. rewrite (ceqb_refl ltc). cbn [negb]. rewrite <- HD, SE.
    assert (LB : (String.length (body 1 x) <= String.length (print_node 1 x))%nat).
    { rewrite print_node_body by assumption. rewrite slen_app. lia. }
    assert (P : match identify (body 1 x +++ rest) with
                | KDecl => parse_decl EncUnknown (body 1 x +++ rest)
                | KComment => parse_comment EncUnknown (body 1 x +++ rest)
                | KUnknown => parse_unknown (body 1 x +++ rest)
                | KElem => parse_elem m EncUnknown (Some (body 1 x +++ rest))
                end = POk (x, Some rest, false)).
    { destruct x as [n a ch|s|s|s|v e s]; try discriminate; try (exfalso; inversion Wx; fail).
      - assert (X : xml_name n) by (inversion Wx; assumption).
        rewrite body_ident by exact X. apply elem_reads_all; [exact Wx | reflexivity|].
        rewrite slen_app. change (String.length nls) with 1%nat in L. lia.
      - assert (C : no_nul s /\ ~ contains_byte "&"%char s /\ ~ contains "-->" s) by (inversion Wx; auto).
        destruct C as [C1 [C2 C3]].
        assert (B : body 1 (XComment s) +++ rest = "<!--" +++ s +++ "-->" +++ rest).
        { cbn [body print_node indent]. rewrite c_str_id by exact C1. cbn [String.append].
          rewrite sapp_assoc. reflexivity. }
        rewrite B. cbn [String.append].
        change (identify _) with KComment. cbv iota.
        apply parse_comment_print; assumption. }
    assert (NE : rest <> ""%string).
    { unfold rest. intros Q. apply (f_equal String.length) in Q. rewrite slen_app in Q. cbn in Q. lia. }
    rewrite P. cbn [pbind]. rewrite skip_some by exact NE.
    unfold rest. rewrite IH; auto. fold rest. change (String.length nls) with 1%nat in L. lia.
Qed.

(** a saved file whose writing stopped behind some child of the root *)
Lemma cut_accepted : forall n a ch1 ch2, writable (XElem n a (ch1 ++ ch2)) -> ch1 ++ ch2 <> [] ->
  (forall x, In x (ch1 ++ ch2) -> is_text x = false) ->
  exists s t, print_doc [XElem n a (ch1 ++ ch2)] = s +++ t /\ t <> ""%string /\
    LoadFile s = POk ([XElem n a ch1], true).
Proof.
  intros n a ch1 ch2 W NE T.
  assert (X : xml_name n) by (inversion W; assumption).
  assert (AT : Forall attr_ok a) by (apply attrs_forall; inversion W; assumption).
  assert (ND : NoDup (map fst a)) by (inversion W; assumption).
  assert (WC : forall x, In x (ch1 ++ ch2) -> writable x) by (inversion W; assumption).
  set (s := "<" +++ n +++ print_attrs a +++ ">" +++ print_children 1 ch1 +++ nls).
  assert (PD : exists t, t <> ""%string /\ print_doc [XElem n a (ch1 ++ ch2)] = s +++ t).
  { cbn [print_doc]. rewrite print_node_body by (auto; reflexivity). cbn [indent String.append].
    cbn [body]. rewrite name_cstr by exact X.
    assert (E0 : match ch1 ++ ch2 with
                 | [] => " />"%string
                 | _ => ">" +++ print_children 1 (ch1 ++ ch2)%list +++
                        (match (ch1 ++ ch2)%list with [XText _] => ""%string | _ => nls +++ indent 0 end) +++ "</" +++ n +++ ">"
                 end = ">" +++ print_children 1 (ch1 ++ ch2)%list +++ nls +++ "</" +++ n +++ ">").
    { destruct (ch1 ++ ch2)%list as [|x l] eqn:E; [contradiction|].
      assert (Tx : is_text x = false) by (apply T; left; reflexivity).
      destruct x, l; try discriminate; reflexivity. }
    rewrite E0. rewrite print_children_app. unfold s. destruct ch2 as [|x ch2].
    - exists ("</" +++ n +++ ">" +++ nls). split; [discriminate|]. cbn [print_children String.append].
      rewrite !sapp_assoc. cbn [String.append]. rewrite !sapp_assoc. cbn [String.append]. rewrite ?sapp_assoc. reflexivity.
    - assert (Tx : is_text x = false) by (apply T; apply in_or_app; right; left; reflexivity).
      exists (print_node 1 x +++ print_children 1 ch2 +++ nls +++ "</" +++ n +++ ">" +++ nls). split.
      + intros Q. apply (f_equal String.length) in Q. rewrite !slen_app in Q. cbn in Q. lia.
      + cbn [print_children]. rewrite Tx. cbn [String.append]. rewrite !sapp_assoc. cbn [String.append].
        rewrite !sapp_assoc. cbn [String.append]. rewrite !sapp_assoc. reflexivity. }
  destruct PD as [t [NT PD]]. exists s, t. split; [exact PD|]. split; [exact NT|].
  assert (TN : exists d u, print_attrs a +++ ">" +++ print_children 1 ch1 +++ nls = String d u /\ name_char d = false).
  { destruct a as [|b a]; cbn [print_attrs String.append]; eexists; eexists; split; reflexivity. }
  destruct TN as [d [u [EU NC]]].
  assert (ES : s = "<" +++ n +++ String d u) by (unfold s; rewrite EU; reflexivity).
  rewrite ES. eapply load_attrs_open; auto.
  - replace (S (S (String.length u))) with (S (String.length (String d u))) by reflexivity. rewrite <- EU.
    apply (parse_attrs_print a [] (">" +++ print_children 1 ch1 +++ nls) _ (AOpen (print_children 1 ch1 +++ nls))); auto.
    + discriminate.
    + intros m0 acc2 Hm. apply parse_attrs_open. exact Hm.
    + rewrite !slen_app. assert (LA := print_attrs_len a). lia.
  - assert (NE2 : print_children 1 ch1 +++ nls <> ""%string).
    { intros Q. apply (f_equal String.length) in Q. rewrite slen_app in Q. cbn in Q. lia. }
    rewrite skip_some by exact NE2. apply read_value_cut.
    + intros x I. split; [apply WC | apply T]; apply in_or_app; left; exact I.
    + unfold elem_fuel'. rewrite <- ES. unfold s. cbn [String.append String.length]. rewrite !slen_app. cbn [String.length]. rewrite !slen_app. lia.
Qed.

(** an '&' that begins no reference is dropped *)
Lemma strip_prefix_none : forall t r u, ~ (exists z, r = t +++ z) -> (forall a b, t = a +++ b -> b <> ""%string -> ~ exists z, u = b +++ z) ->
  strip t (r +++ u) = None.
Proof.
  induction t as [|c t IH]; intros r u N U.
  - exfalso. apply N. exists r. reflexivity.
  - destruct r as [|d r].
    + cbn [String.append]. destruct (strip (String c t) u) eqn:S; [|reflexivity]. exfalso.
      apply strip_some in S. apply (U ""%string (String c t)); [reflexivity | discriminate | eauto].
    + cbn [String.append strip]. destruct (ceqb c d) eqn:E; [|reflexivity]. apply ceqb_true in E. subst d.
      apply IH.
      * intros [z Z]. apply N. exists z. rewrite Z. reflexivity.
      * intros a b E. apply (U (String c a)). rewrite E. reflexivity.
Qed.

Lemma stray_ampersand_dropped : forall n k q v r, xml_name n -> xml_name k -> q = quot \/ q = apos ->
  ~ contains_byte amp v -> ~ contains_byte q v -> ~ contains_byte amp r -> ~ contains_byte q r ->
  (forall t, In t ["#"; "amp;"; "lt;"; "gt;"; "quot;"; "apos;"]%string -> ~ exists z, r = t +++ z) ->
  LoadFile ("<" +++ n +++ " " +++ k +++ "=" +++ String q (v +++ "&" +++ r +++ String q (" />" +++ nls))) =
    POk ([XElem n [(k, v +++ r)] []], true).
Proof.
  intros n k q v r X K Q A N Ar Nr H. cbn [String.append].
  apply load_attrs_empty; [exact X | reflexivity|].
  match goal with |- context [Some (String " " (k +++ String "=" ?x))] =>
    change (String " " (k +++ String "=" x)) with (" " +++ k +++ "=" +++ x) end.
  rewrite attrs_first by exact K. rewrite parse_attr_quoted by assumption.
  unfold read_quoted, ReadText. cbn [plen].
  match goal with |- context [read_keep ?m] => set (fu := m) end.
  set (u := String q (String " " (String "/" (String ">" nls)))).
  assert (FU : (String.length v + 1 + String.length r + 1 < fu)%nat).
  { unfold fu. rewrite slen_app. cbn [String.length]. rewrite slen_app. cbn [String.length]. lia. }
  rewrite read_keep_plain by (auto; lia).
  remember (fu - String.length v)%nat as f2. destruct f2 as [|f2]; [lia|].
  cbn [read_keep strip].
  assert (NQ : ceqb q "&" = false) by (apply ceqb_false; destruct Q as [->| ->]; discriminate).
  rewrite NQ.
  assert (ST : forall t, In t ["#"; "amp;"; "lt;"; "gt;"; "quot;"; "apos;"]%string -> strip t (r +++ u) = None).
  { intros t T. apply strip_prefix_none; [apply H; exact T|].
    intros a b E NB [z Z]. unfold u in Z. destruct b as [|b0 b]; [contradiction|]. cbn in Z. injection Z as Z _.
    assert (C : contains_byte q t) by (exists a, b; rewrite E, Z; reflexivity).
    clear - C T Q.
    repeat (destruct T as [<-|T];
      [repeat (apply contains_byte_inv in C; destruct C as [C|C]; [destruct Q; subst q; discriminate|]);
       destruct (contains_byte_nil _ C)|]). destruct T. }
  assert (G : GetChar EncUnknown (String "&" (r +++ u)) = POk (""%string, Some (r +++ u))).
  { assert (NE : named_entity (String "&" (r +++ u)) = (""%string, Some (r +++ u))).
    { unfold named_entity.
      assert (S2 : forall t, strip (String "&" t) (String "&" (r +++ u)) = strip t (r +++ u)) by reflexivity.
      change "&amp;"%string with (String "&" "amp;"). change "&lt;"%string with (String "&" "lt;").
      change "&gt;"%string with (String "&" "gt;"). change "&quot;"%string with (String "&" "quot;").
      change "&apos;"%string with (String "&" "apos;").
      rewrite !S2. rewrite !ST by (cbn; tauto). reflexivity. }
    unfold GetChar. cbn [is_utf8]. change (1 =? 1) with true. cbv iota.
    change (ceqb "&" amp) with true. cbv iota. f_equal.
    assert (SH := ST "#"%string (or_introl eq_refl)).
    unfold GetEntity. destruct (r +++ u) as [|h [|c z]]; try exact NE.
    cbn [strip] in SH. destruct (ceqb "#" h) eqn:E; [discriminate|].
    assert (E2 : ceqb h "#" = false) by (apply ceqb_false; apply ceqb_false in E; congruence).
    rewrite E2. exact NE. }
  fold u. rewrite G. cbn [pbind].
  rewrite read_keep_plain by (auto; lia).
  remember (f2 - String.length r)%nat as f3. destruct f3 as [|f3]; [lia|].
  unfold u at 1. cbn [read_keep strip]. rewrite ceqb_refl. cbn [pbind]. rewrite sapp_nil_r.
  cbn [find_attr c_str String.append app].
  match goal with |- parse_attrs ?m _ _ _ = _ => destruct m eqn:M end.
  { cbn in M. rewrite slen_app in M. cbn in M. lia. }
  reflexivity.
Qed.

Lemma document_kept : forall l, l <> [] ->
  (forall x, In x l -> writable x /\ forall s, x <> XText s) ->
  LoadFile (print_doc l) = POk (l, true).
Proof.
  intros l NE H. apply load_print; [exact NE|]. apply Forall_forall. intros x I. destruct (H x I) as [W T].
  split; [exact W|]. destruct x; try reflexivity. destruct (T s). reflexivity.
Qed.

Lemma reference_not_kept : forall n k v h r, xml_name n -> xml_name k ->
  no_nul v -> no_nul r -> charref_free v -> charref_free r -> h <> ""%string -> all_bytes hex_byte h ->
  let w := v +++ "&#x" +++ h +++ ";" +++ r in
  exists c, v +++ String c r <> w /\
    LoadFile (print_doc [XElem n [(k, w)] []]) = POk ([XElem n [(k, v +++ String c r)] []], true).
Proof.
  intros n k v h r X K NV NR CV CR NE H w.
  destruct (reference_decoded n k v h r X K NV NR CV CR NE H) as [c C].
  exists c. split; [apply reference_lost; exact NE | exact C].
Qed.

Lemma cut_file_accepted : forall n a ch1 ch2, writable (XElem n a (ch1 ++ ch2)) -> (ch1 ++ ch2)%list <> [] ->
  (forall s, ~ In (XText s) (ch1 ++ ch2)) ->
  exists s t, print_doc [XElem n a (ch1 ++ ch2)] = s +++ t /\ t <> ""%string /\
    LoadFile s = POk ([XElem n a ch1], true).
Proof.
  intros n a ch1 ch2 W NE T. apply cut_accepted; auto.
  intros x I. destruct x; try reflexivity. destruct (T s I).
Qed.
