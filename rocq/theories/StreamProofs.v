(** Renderings of trees: parsed back, and read from a stream to their end. *)
From Coq Require Import ZArith List String Ascii Bool Lia.
From Verif Require Import Base XmlModel XmlSpec XmlProofs XmlProofs2 StreamModel StreamSpec.
Import ListNotations.
Open Scope Z_scope.

(** ** renderings *)
Definition not_text_first (l : list xnode) : Prop := match l with XText _ :: _ => False | _ => True end.
Inductive rend : xnode -> string -> Prop :=
| R_empty n a : xml_name n -> Forall attr_ok a -> NoDup (map fst a) -> rend (XElem n a []) ("<" +++ n +++ print_attrs a +++ " />")
| R_elem n a ch u : xml_name n -> Forall attr_ok a -> NoDup (map fst a) -> rends ch u ->
    rend (XElem n a ch) ("<" +++ n +++ print_attrs a +++ ">" +++ u +++ "</" +++ n +++ ">")
| R_comment s : no_nul s -> ~ contains_byte "&"%char s -> ~ contains "-->" s -> rend (XComment s) ("<!--" +++ s +++ "-->")
with rends : list xnode -> string -> Prop :=
| R_nil w : all_ws w = true -> rends [] w
| R_node w x u l v : all_ws w = true -> rend x u -> rends l v -> rends (x :: l) (w +++ u +++ v)
| R_text w s l v : all_ws w = true -> no_nul s -> charref_free s -> tidy_text s -> not_text_first l -> rends l v -> rends (XText s :: l) (w +++ esc s +++ v).
Scheme rend_mut := Induction for rend Sort Prop with rends_mut := Induction for rends Sort Prop.

Lemma rend_head x u : rend x u -> exists c t, u = String ltc (String c t) /\ c <> "/"%char /\ IsWhiteSpace c = false /\ c <> ltc /\ is_text x = false.
Proof.
  intros R. destruct R as [n a X|n a ch u X|s].
  - destruct (name_start_not_space n X) as (c & t & -> & W & N & _). cbn [String.append]. do 2 eexists. split; [reflexivity|]. repeat split; auto.
    intros ->. destruct X as (c & t' & E & B & _). injection E as <- _. cbv in B. intuition congruence.
  - destruct (name_start_not_space n X) as (c & t & -> & W & N & _). cbn [String.append]. do 2 eexists. split; [reflexivity|]. repeat split; auto.
    intros ->. destruct X as (c & t' & E & B & _). injection E as <- _. cbv in B. intuition congruence.
  - cbn [String.append]. do 2 eexists. split; [reflexivity|]. repeat split; try discriminate.
Qed.
Lemma rends_shape l v : rends l v -> not_text_first l -> forall r, exists u z, v +++ "</" +++ r = u +++ String ltc z /\ all_ws u = true.
Proof.
  intros R N r. destruct R as [w A|w x u l v A R _|w s l v].
  - exists w, (String "/" r). auto.
  - destruct (rend_head _ _ R) as (c & t & -> & _). exists w, (String c t +++ v +++ "</" +++ r). rewrite !sapp_assoc. auto.
  - contradiction.
Qed.
Lemma ident_elem n s : xml_name n -> identify (String ltc (n +++ s)) = KElem.
Proof.
  intros (c & t & -> & H & _). cbn [String.append]. unfold identify.
  assert (Q1 : ceqb (ToLower c) (ToLower "?") = false).
  { apply ceqb_false. intros Q. change (ToLower "?"%char) with "?"%char in Q. unfold ToLower in Q.
    unfold start_byte in H.
    destruct ((65 <=? byte c) && (byte c <=? 90)) eqn:E.
    - apply (f_equal byte) in Q. change (byte "?") with 63 in Q. unfold byte, chr in Q.
      rewrite N_ascii_embedding in Q.
      + apply andb_true_iff in E. rewrite !Z.leb_le in E. fold (byte c) in Q.
        rewrite Z.mod_small in Q by lia. lia.
      + fold (byte c). pose proof (Z.mod_pos_bound (byte c + 32) 256). lia.
    - subst c. cbv in H. intuition congruence. }
  cbn [StringEqualNoCase]. change (ceqb (ToLower ltc) (ToLower "<")) with true. cbv iota. rewrite Q1.
  assert (Q2 : ceqb "!" c = false).
  { apply ceqb_false. intros <-. cbv in H. intuition congruence. }
  unfold StringEqual. cbn [strip]. change (ceqb "<" ltc) with true. cbv iota. rewrite Q2.
  rewrite start_byte_alpha by exact H. reflexivity.
Qed.
Lemma ident_comment s : identify ("<!--" +++ s) = KComment. Proof. reflexivity. Qed.

(** ** parsing *)
Definition node_reads (x : xnode) (u : string) : Prop := forall r m, (2 * String.length (u +++ r) <= m)%nat ->
  match identify (u +++ r) with
  | KDecl => parse_decl EncUnknown (u +++ r)
  | KComment => parse_comment EncUnknown (u +++ r)
  | KUnknown => parse_unknown (u +++ r)
  | KElem => parse_elem m EncUnknown (Some (u +++ r))
  end = POk (x, Some r, false).
Definition nodes_read (l : list xnode) (v : string) : Prop := forall r m, (2 * String.length (v +++ "</" +++ r) + 1 <= m)%nat ->
  read_value m EncUnknown (Some (skip_ws (v +++ "</" +++ r))) = POk (l, Some ("</" +++ r), false).

Lemma elem_common n a tail r m out : xml_name n -> Forall attr_ok a -> NoDup (map fst a) ->
  (2 <= m)%nat -> (tail = " />"%string \/ exists y, tail = ">" +++ y) ->
  (forall m0 acc2, (1 <= m0)%nat -> parse_attrs m0 EncUnknown acc2 (Some (tail +++ r)) = POk (acc2, out)) ->
  parse_elem (S m) EncUnknown (Some ("<" +++ n +++ print_attrs a +++ tail +++ r)) =
    match out with
    | AFail er => POk (XElem n a [], None, er)
    | AEmpty r => POk (XElem n a [], Some r, false)
    | AOpen r =>
        pbind (read_value m EncUnknown (SkipWhiteSpace EncUnknown (Some r))) (fun '(ch, q, er) =>
        match q with
        | None | Some EmptyString => POk (XElem n a ch, None, er)
        | Some s2 =>
            match strip ("</" +++ n +++ ">") s2 with
            | Some r2 => POk (XElem n a ch, Some r2, er)
            | None => POk (XElem n a ch, None, true)
            end
        end)
    end.
Proof.
  intros X AT ND M TL PA. cbn [String.append parse_elem].
  change (SkipWhiteSpace EncUnknown (Some (String "<" (n +++ print_attrs a +++ tail +++ r))))
    with (Some (String "<" (n +++ print_attrs a +++ tail +++ r))).
  cbv iota. change (ceqb "<" ltc) with true. cbn [negb].
  destruct (name_start_not_space n X) as [c [t [E [Wc _]]]].
  assert (S1 : SkipWhiteSpace EncUnknown (Some (n +++ print_attrs a +++ tail +++ r)) =
               Some (n +++ print_attrs a +++ tail +++ r)).
  { rewrite E. cbn [String.append]. apply skip_id; [discriminate | exact Wc]. }
  rewrite S1.
  assert (TN : exists d u, print_attrs a +++ tail +++ r = String d u /\ name_char d = false).
  { destruct a as [|b a].
    - cbn [print_attrs String.append]. destruct TL as [->|[y ->]]; cbn [String.append]; eexists; eexists; (split; [reflexivity|]; reflexivity).
    - cbn [print_attrs String.append]. eexists; eexists; split; reflexivity. }
  destruct TN as [d [u [EU NC]]].
  assert (RN : ReadName (Some (n +++ print_attrs a +++ tail +++ r)) = (n, Some (print_attrs a +++ tail +++ r))).
  { rewrite EU. apply ReadName_app; assumption. }
  rewrite RN. rewrite EU at 1. cbv iota beta.
  assert (LA := print_attrs_len a).
  rewrite (parse_attrs_print a [] (tail +++ r) _ out); auto.
  - destruct TL as [->|[y ->]]; discriminate.
  - rewrite !slen_app. destruct TL as [->|[y ->]]; cbn [String.length String.append]; lia.
Qed.

Lemma rend_reads x u : rend x u -> node_reads x u.
Proof.
  revert x u. apply (rend_mut (fun x u _ => node_reads x u) (fun l v _ => nodes_read l v)).
  - intros n a X AT ND r m L. rewrite !sapp_assoc in *.
    assert (I : identify ("<" +++ n +++ print_attrs a +++ " />" +++ r) = KElem) by (apply (ident_elem n _ X)). rewrite I.
    rewrite !slen_app in L. cbn [String.length] in L. destruct m as [|m]; [lia|].
    rewrite (elem_common n a " />" r m (AEmpty r) X AT ND); auto; [lia|]. intros m0 acc2 H. now apply parse_attrs_empty.
  - intros n a ch u X AT ND _ IH r m L. rewrite !sapp_assoc in *.
    assert (I : identify ("<" +++ n +++ print_attrs a +++ ">" +++ u +++ "</" +++ n +++ ">" +++ r) = KElem) by (apply (ident_elem n _ X)). rewrite I.
    rewrite !slen_app in L. cbn [String.length] in L. destruct m as [|m]; [lia|].
    pose proof (elem_common n a (">" +++ u +++ "</" +++ n +++ ">") r m (AOpen (u +++ "</" +++ n +++ ">" +++ r)) X AT ND) as EC.
    rewrite !sapp_assoc in EC. rewrite EC; clear EC.
    + rewrite skip_some. 2:{ intros Q. apply (f_equal String.length) in Q. rewrite !slen_app in Q. cbn in Q. lia. }
      rewrite (IH (n +++ ">" +++ r)) by (rewrite !slen_app; cbn [String.length]; lia).
      cbn [pbind String.append strip]. change (ceqb "<" "<") with true. change (ceqb "/" "/") with true. cbv iota.
      change (n +++ String ">" r) with (n +++ ">" +++ r). rewrite <- sapp_assoc, strip_app. reflexivity.
    + lia.
    + right. eauto.
    + intros m0 acc2 H. now apply parse_attrs_open.
  - intros s N A C r m L. rewrite !sapp_assoc. rewrite ident_comment. now apply parse_comment_print.
  - intros w A r m L. rewrite skip_ws_app by exact A. destruct m; [lia|]. reflexivity.
  - intros w x u l v A R IHx RL IHl r m L. rewrite !sapp_assoc in *. rewrite skip_ws_app by exact A. destruct (rend_head _ _ R) as (c & t & E & C1 & C2 & C3 & _).
    assert (E' : u +++ v +++ "</" +++ r = String ltc (String c t +++ v +++ "</" +++ r)) by (rewrite E; reflexivity).
    assert (SK : skip_ws (u +++ v +++ "</" +++ r) = u +++ v +++ "</" +++ r) by (rewrite E'; reflexivity). rewrite SK.
    rewrite !slen_app in L. assert (LU : (2 <= String.length u)%nat) by (rewrite E; cbn; lia). cbn [String.length] in L. destruct m as [|m]; [lia|]. cbn [read_value].
    rewrite E'. rewrite (ceqb_refl ltc). cbn [negb]. rewrite <- E'.
    assert (SE : StringEqual (u +++ v +++ "</" +++ r) "</" = false).
    { rewrite E'. unfold StringEqual. cbn [String.append strip]. change (ceqb "<" ltc) with true. cbv iota. replace (ceqb "/" c) with false; [reflexivity|]. symmetry. apply ceqb_false. congruence. }
    rewrite SE. rewrite (IHx (v +++ "</" +++ r)) by (rewrite !slen_app; cbn [String.length]; lia). cbn [pbind].
    rewrite skip_some by (intros Q; apply (f_equal String.length) in Q; rewrite !slen_app in Q; cbn in Q; lia).
    rewrite (IHl r m) by (rewrite !slen_app; cbn [String.length]; lia). reflexivity.
  - intros w s l v A N CF TD NT RL IH r m L. rewrite !sapp_assoc in *. rewrite skip_ws_app by exact A.
    destruct (rends_shape l v RL NT r) as (u & z & E & U).
    pose proof TD as (S1 & _ & _ & c0 & C0 & _). destruct s as [|d s]; [destruct (contains_byte_nil _ C0)|].
    assert (NSP : d <> sp) by (intros ->; apply (S1 s); reflexivity).
    destruct (esc1_head_text d NSP) as (d1 & t1 & H1 & H2 & H3).
    assert (HD : exists y, esc (String d s) +++ v +++ "</" +++ r = String d1 y) by (cbn [esc]; rewrite H1; cbn [String.append]; eexists; reflexivity).
    destruct HD as (y & HD).
    assert (SK : skip_ws (esc (String d s) +++ v +++ "</" +++ r) = esc (String d s) +++ v +++ "</" +++ r) by (rewrite HD; cbn [skip_ws]; now rewrite H2). rewrite SK.
    assert (LE : (1 <= String.length (esc (String d s)))%nat) by (cbn [esc]; rewrite slen_app, H1; cbn; lia).
    rewrite !slen_app in L. cbn [String.length] in L. destruct m as [|m]; [lia|]. cbn [read_value]. rewrite HD. rewrite (proj2 (negb_true_iff _) (proj2 (ceqb_false d1 ltc) H3)).
    rewrite <- HD, E. rewrite (parse_text_esc (String d s) u z U TD). cbn [pbind].
    assert (SR : SkipWhiteSpace EncUnknown (Some (String ltc z)) = Some (skip_ws (v +++ "</" +++ r))) by (rewrite E, skip_ws_app by exact U; reflexivity).
    rewrite SR. rewrite (IH r m) by (rewrite !slen_app; cbn [String.length]; lia). cbn [pbind]. rewrite tidy_not_blank by exact TD. reflexivity.
Qed.
