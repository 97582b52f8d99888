(** A family of files for which loading never returns *)
From Coq Require Import ZArith List String Ascii Bool Lia.
From Verif Require Import Base XmlModel XmlSpec XmlProofs XmlProofs2 PosModel PosSpec PosProofs PosProofs3.
Import ListNotations.
Open Scope string_scope.
Open Scope list_scope.
Open Scope Z_scope.

Definition W : string := String "239" "/".
Definition decl : string := "<?xml version=" +++ String """" ("1.0" +++ String """" "?>").
Definition elem (n : string) : string := "<" +++ n +++ W.

Lemma ascii_cons : forall c t, ascii_text (String c t) -> byte c < 128 /\ ascii_text t.
Proof.
  intros c t H. split; [eapply asc_head; exact H | eapply asc_suffix; [exact H | apply suffix_tail]].
Qed.

(** over 7-bit characters the loop goes on, at [W] it does not end *)
Lemma stamp_loop_seven : forall k e now a row col, ascii_text a -> (2 <= now)%nat ->
  stamp_loop k e now (a +++ W) row col = None \/
  exists r c a', stamp_loop k e now (a +++ W) row col = Some (r, c, Some (a' +++ W)) /\ ascii_text a'.
Proof.
  induction k; intros e now a row col A N; [left; reflexivity|]. cbn [stamp_loop].
  destruct (now <? String.length (a +++ W))%nat eqn:L; [|right; exists row, col, a; auto].
  apply Nat.ltb_lt in L. destruct a as [|x t]; [cbn in L; lia|]. cbn [String.append].
  destruct (ascii_cons _ _ A) as [B At].
  destruct (byte x =? 13).
  { destruct t as [|d u]; cbn [String.append].
    - assert (E : W = String "239" "/") by reflexivity. rewrite E. cbn [byte]. change (byte "239" =? 10) with false. cbv match.
      rewrite <- E. apply (IHk e now "" (row + 1) 0 At N).
    - destruct (ascii_cons _ _ At) as [_ Au].
      destruct (byte d =? 10); [apply (IHk e now u) | apply (IHk e now (String d u))]; assumption. }
  destruct (byte x =? 10).
  { destruct t as [|d u]; cbn [String.append].
    - assert (E : W = String "239" "/") by reflexivity. rewrite E. change (byte "239" =? 13) with false. cbv match.
      rewrite <- E. apply (IHk e now "" (row + 1) 0 At N).
    - destruct (ascii_cons _ _ At) as [_ Au].
      destruct (byte d =? 13); [apply (IHk e now u) | apply (IHk e now (String d u))]; assumption. }
  destruct (byte x =? 9); [apply IHk; assumption|].
  assert (byte x =? 239 = false) as -> by (apply Z.eqb_neq; lia).
  assert ((if is_utf8 e then utf8_len x else 1) = 1) as ->.
  { destruct (is_utf8 e); [|reflexivity]. unfold utf8_len. assert (byte x <? 194 = true) as -> by (apply Z.ltb_lt; lia). reflexivity. }
  cbv zeta. assert (Z.of_nat (String.length (String x (t +++ W))) <? 1 = false) as -> by (apply Z.ltb_ge; cbn [String.length]; lia).
  change (Z.to_nat 1) with 1%nat. cbn [drop]. apply IHk; assumption.
Qed.

Lemma stamp_loop_stuck : forall k a row col, ascii_text a -> stamp_loop k EncUtf8 0 (a +++ W) row col = None.
Proof.
  induction k; intros a row col A; [reflexivity|]. cbn [stamp_loop].
  destruct (0 <? String.length (a +++ W))%nat eqn:L; [|apply Nat.ltb_ge in L; rewrite slen_app in L; cbn in L; lia].
  destruct a as [|x t].
  { cbn [String.append]. unfold W. change (byte "239" =? 13) with false. change (byte "239" =? 10) with false.
    change (byte "239" =? 9) with false. change (byte "239" =? 239) with true. cbv match. cbn [is_utf8].
    apply (IHk "" row col). apply all_bytes_nil. }
  cbn [String.append].
  destruct (ascii_cons _ _ A) as [B At].
  destruct (byte x =? 13).
  { destruct t as [|d u]; cbn [String.append].
    - assert (E : W = String "239" "/") by reflexivity. rewrite E. change (byte "239" =? 10) with false. cbv match.
      rewrite <- E. apply (IHk ""). exact At.
    - destruct (ascii_cons _ _ At) as [_ Au].
      destruct (byte d =? 10); [apply (IHk u) | apply (IHk (String d u))]; assumption. }
  destruct (byte x =? 10).
  { destruct t as [|d u]; cbn [String.append].
    - assert (E : W = String "239" "/") by reflexivity. rewrite E. change (byte "239" =? 13) with false. cbv match.
      rewrite <- E. apply (IHk ""). exact At.
    - destruct (ascii_cons _ _ At) as [_ Au].
      destruct (byte d =? 13); [apply (IHk u) | apply (IHk (String d u))]; assumption. }
  destruct (byte x =? 9); [apply IHk; assumption|].
  assert (byte x =? 239 = false) as -> by (apply Z.eqb_neq; lia). cbn [is_utf8].
  assert (utf8_len x = 1) as ->.
  { unfold utf8_len. assert (byte x <? 194 = true) as -> by (apply Z.ltb_lt; lia). reflexivity. }
  cbv zeta. assert (Z.of_nat (String.length (String x (t +++ W))) <? 1 = false) as -> by (apply Z.ltb_ge; cbn [String.length]; lia).
  change (Z.to_nat 1) with 1%nat. cbn [drop]. apply IHk; assumption.
Qed.

(** [m] waits, or returns with [Q] *)
Definition J (st : pst) : Prop := errd st = None /\ exists a, stamp st = Some (a +++ W) /\ ascii_text a.
Definition waits_or {A} (m : M A) (Q : A -> Prop) : Prop :=
  forall st, J st -> match m st with TWait => True | TOk st' a => J st' /\ Q a | _ => False end.
Definition never {A} (m : M A) : Prop := forall st, J st -> m st = TWait.

Lemma w_bind : forall A B (m : M A) (f : A -> M B) Q R, waits_or m Q -> (forall a, Q a -> waits_or (f a) R) -> waits_or (mbind m f) R.
Proof.
  intros A B m f Q R H1 H2 st HJ. unfold mbind. specialize (H1 st HJ). destruct (m st) as [st' a| | |]; auto.
  destruct H1 as [H1 HQ]. exact (H2 a HQ st' H1).
Qed.
Lemma n_bind : forall A B (m : M A) (f : A -> M B) Q, waits_or m Q -> (forall a, Q a -> never (f a)) -> never (mbind m f).
Proof.
  intros A B m f Q H1 H2 st HJ. unfold mbind. specialize (H1 st HJ). destruct (m st) as [st' a| | |]; try contradiction; auto.
  destruct H1 as [H1 HQ]. exact (H2 a HQ st' H1).
Qed.
Lemma n_bind1 : forall A B (m : M A) (f : A -> M B), never m -> never (mbind m f).
Proof. intros A B m f H st HJ. unfold mbind. rewrite (H st HJ). reflexivity. Qed.
Lemma w_ret : forall A (a : A) (Q : A -> Prop), Q a -> waits_or (ret a) Q.
Proof. intros A a Q H st HJ. split; assumption. Qed.
Lemma w_stamp : forall k e now, (2 <= String.length now)%nat -> waits_or (Stamp k e now) (fun _ => True).
Proof.
  intros k e now L st [E [a [S A]]]. unfold Stamp. rewrite S.
  destruct (stamp_loop_seven k e (String.length now) a (c_row st) (c_col st) A L) as [->|[r [c [a' [-> A']]]]]; [exact I|].
  split; [|exact I]. split; [exact E|]. exists a'. auto.
Qed.
Lemma n_err : forall k x, never (SetError k x EncUtf8 (Some "")).
Proof.
  intros k x st [E [a [S A]]]. unfold SetError. rewrite E. unfold mbind, Stamp. rewrite S.
  change (String.length "") with 0%nat. rewrite (stamp_loop_stuck k a (c_row st) (c_col st) A). reflexivity.
Qed.

Lemma skip_utf8_id : forall c t, byte c < 128 -> IsWhiteSpace c = false ->
  SkipWhiteSpace EncUtf8 (Some (String c t)) = Some (String c t).
Proof.
  intros c t B WS. unfold SkipWhiteSpace. cbn [is_utf8 String.length skip_ws_utf8].
  assert (bom_rest (String c t) = None) as ->.
  { destruct t as [|b [|d u]]; try reflexivity. unfold bom_rest.
    assert (byte c =? 239 = false) as -> by (apply Z.eqb_neq; lia). reflexivity. }
  rewrite WS. reflexivity.
Qed.

Section Never.
Variable k : nat.
Variable n : string.
Hypothesis XN : xml_name n.
Hypothesis AN : ascii_text n.

Lemma elem_len : (2 <= String.length (elem n))%nat.
Proof. unfold elem. cbn [String.append String.length]. rewrite slen_app. cbn. lia. Qed.

Lemma attr_version : forall r, waits_or (tparse_attr k false EncUnknown (Some ("version=" +++ String """" ("1.0" +++ String """" ("?>" +++ r)))))
  (fun x => x = ("version", "1.0", Some ("?>" +++ r))).
Proof.
  intros r. unfold tparse_attr.
  change (SkipWhiteSpace EncUnknown (Some ("version=" +++ String """" ("1.0" +++ String """" ("?>" +++ r)))))
    with (Some ("version=" +++ String """" ("1.0" +++ String """" ("?>" +++ r)))).
  cbn [String.append]. cbv match.
  eapply w_bind; [apply w_stamp; cbn [String.length]; lia|]. intros [] _. cbv beta.
  cbn. apply w_ret. reflexivity.
Qed.

Lemma tdecl_eq : forall m e v c a p, tdecl_loop k (S m) e v c a p =
  match p with
  | None | Some EmptyString => ret (XDecl v c a, None)
  | Some (String d t as s) =>
      if ceqb d gtc then ret (XDecl v c a, Some t)
      else
        match SkipWhiteSpace e (Some s) with
        | None => ret (XDecl v c a, None)
        | Some s1 =>
            if StringEqualNoCase s1 "version" then
              '(_, w, q) <- tparse_attr k false e (Some s1) ;; tdecl_loop k m e (c_str w) c a q
            else if StringEqualNoCase s1 "encoding" then
              '(_, w, q) <- tparse_attr k false e (Some s1) ;; tdecl_loop k m e v (c_str w) a q
            else if StringEqualNoCase s1 "standalone" then
              '(_, w, q) <- tparse_attr k false e (Some s1) ;; tdecl_loop k m e v c (c_str w) q
            else tdecl_loop k m e v c a (Some (skip_word s1))
        end
  end.
Proof. reflexivity. Qed.

Lemma decl_steps : forall m r, waits_or (tdecl_loop k (S (S (S m))) EncUnknown "" "" ""
    (Some (" version=" +++ String """" ("1.0" +++ String """" ("?>" +++ r)))))
  (fun x => x = (XDecl "1.0" "" "", Some r)).
Proof.
  intros m r. rewrite tdecl_eq.
  assert (AV := attr_version r). set (V := "version=" +++ String """" ("1.0" +++ String """" ("?>" +++ r))) in *.
  change (" version=" +++ String """" ("1.0" +++ String """" ("?>" +++ r))) with (String " " V).
  cbv match. change (ceqb " " gtc) with false. cbv match.
  change (SkipWhiteSpace EncUnknown (Some (String " " V))) with (Some V). cbv match.
  change (StringEqualNoCase V "version") with true. cbv match.
  eapply w_bind; [exact AV|]. intros x ->. cbv match beta. change (c_str "1.0") with "1.0".
  rewrite tdecl_eq. change ("?>" +++ r) with (String "?" (String ">" r)). cbv match.
  change (ceqb "?" gtc) with false. cbv match.
  change (SkipWhiteSpace EncUnknown (Some (String "?" (String ">" r)))) with (Some (String "?" (String ">" r))). cbv match.
  change (StringEqualNoCase (String "?" (String ">" r)) "version") with false.
  change (StringEqualNoCase (String "?" (String ">" r)) "encoding") with false.
  change (StringEqualNoCase (String "?" (String ">" r)) "standalone") with false. cbv match.
  change (skip_word (String "?" (String ">" r))) with (String ">" r). rewrite tdecl_eq. cbv match.
  change (ceqb ">" gtc) with true. cbv match. apply w_ret. reflexivity.
Qed.

Lemma decl_parse : waits_or (tparse_decl k EncUnknown (decl +++ elem n)) (fun x => x = (XDecl "1.0" "" "", Some (elem n))).
Proof.
  unfold tparse_decl. eapply w_bind; [apply w_stamp; unfold decl; cbn [String.append String.length]; lia|]. intros [] _. cbv beta.
  assert (LN : exists m, String.length (decl +++ elem n) = S (S m)) by (eexists; reflexivity). destruct LN as [m ->].
  change (drop 5 (decl +++ elem n)) with (" version=" +++ String """" ("1.0" +++ String """" ("?>" +++ elem n))).
  apply decl_steps.
Qed.

Lemma elem_never : forall m, never (tparse_elem k (S m) EncUtf8 (Some (elem n))).
Proof.
  intros m. cbn [tparse_elem].
  assert (SK : SkipWhiteSpace EncUtf8 (Some (elem n)) = Some (elem n)) by (apply skip_utf8_id; reflexivity). rewrite SK.
  unfold elem. cbn [String.append]. cbv match.
  eapply n_bind; [apply w_stamp; fold (elem n); exact elem_len|]. intros [] _. cbv beta. change (negb (ceqb "<" ltc)) with false. cbv match zeta.
  assert (SK2 : SkipWhiteSpace EncUtf8 (Some (n +++ W)) = Some (n +++ W)).
  { destruct XN as [c [t [E [SB _]]]]. rewrite E. cbn [String.append].
    assert (A := AN). rewrite E in A. apply ascii_cons in A. destruct A as [A _]. apply skip_utf8_id; [exact A|].
    destruct (IsWhiteSpace c) eqn:WS; [|reflexivity]. apply ws_space in WS. unfold start_byte, space_byte in *. lia. }
  rewrite SK2.
  assert (RN : ReadName (Some (n +++ W)) = (n +++ String "239" "", Some "/")).
  { replace (n +++ W) with ((n +++ String "239" "") +++ String "/" "") by (rewrite sapp_assoc; reflexivity).
    apply ReadName_app; [|reflexivity]. destruct XN as [c [t [-> [SB NB]]]]. exists c, (t +++ String "239" "").
    split; [reflexivity|]. split; [exact SB|]. intros d [x [y E]].
    assert (AB : all_bytes name_byte (t +++ String "239" "")).
    { apply all_bytes_app; [exact NB|]. apply all_bytes_cons; [left; right; right; right; vm_compute; discriminate | apply all_bytes_nil]. }
    apply AB. exists x, y. exact E. }
  rewrite RN. cbv match beta.
  apply n_bind1. cbn [String.length tparse_attrs].
  change (SkipWhiteSpace EncUtf8 (Some "/")) with (Some "/"). cbv match. change (ceqb "/" "/") with true. cbv match.
  apply n_bind1. apply n_err.
Qed.

Lemma load_never : tLoadFile k (decl +++ elem n) = TWait.
Proof.
  unfold tLoadFile. assert (EQ : String.eqb (decl +++ elem n) "" = false) by reflexivity. rewrite EQ.
  unfold tparse_doc. assert (SE : start_enc (decl +++ elem n) = EncUnknown) by reflexivity. rewrite SE.
  assert (SK : SkipWhiteSpace EncUnknown (Some (decl +++ elem n)) = Some (decl +++ elem n)) by reflexivity. rewrite SK.
  match goal with |- ?m ?st = _ => assert (NV : never m); [|apply NV] end.
  - apply n_bind1. 
    assert (LN : exists m, String.length (decl +++ elem n) = S m) by (eexists; reflexivity). destruct LN as [m ->].
    assert (HD : exists t, decl +++ elem n = String ltc t) by (eexists; reflexivity). destruct HD as [t HD].
    cbn [tdoc_loop]. rewrite HD. change (negb (ceqb ltc ltc)) with false. cbv match. rewrite <- HD.
    eapply n_bind with (Q := fun x => x = (XDecl "1.0" "" "", Some (elem n))).
    + unfold tparse_node. assert (ID : identify (decl +++ elem n) = KDecl) by reflexivity. rewrite ID. apply decl_parse.
    + intros x ->. cbv match beta zeta. change (next_enc EncUnknown (XDecl "1.0" "" "")) with EncUtf8.
      assert (SK3 : SkipWhiteSpace EncUtf8 (Some (elem n)) = Some (elem n)) by (apply skip_utf8_id; reflexivity). rewrite SK3.
      apply n_bind1.
      assert (HE : elem n = String ltc (n +++ W)) by reflexivity. rewrite HE. change (negb (ceqb ltc ltc)) with false. cbv match.
      apply n_bind1. unfold tparse_node.
      assert (ID : identify (String ltc (n +++ W)) = KElem).
      { destruct XN as [c [t' [E [SB _]]]]. rewrite E. cbn [String.append]. unfold identify. 
        assert (AL := start_byte_alpha c SB).
        cbn [StringEqualNoCase StringEqual strip]. 
        assert (C1 : ceqb (ToLower c) (ToLower "?") = false).
        { apply ceqb_false. intros X. assert (Y : c = "?"%char \/ (65 <= byte c <= 90)).
          { unfold ToLower in X. destruct ((65 <=? byte c) && (byte c <=? 90)) eqn:U.
            - right. rewrite andb_true_iff, !Z.leb_le in U. exact U.
            - left. exact X. }
          destruct Y as [->|Y]; [vm_compute in SB; intuition congruence|].
          unfold ToLower in X. assert ((65 <=? byte c) && (byte c <=? 90) = true) as U by (rewrite andb_true_iff, !Z.leb_le; exact Y).
          cbv zeta in X. rewrite U in X. apply (f_equal byte) in X. revert X. unfold chr, byte. 
          rewrite N_ascii_embedding; [|]. 
          - rewrite Z2N.id by (apply Z.mod_pos_bound; lia). fold (byte c). rewrite Z.mod_small by lia. cbn. lia.
          - assert (B := Z.mod_pos_bound (Z.of_N (N_of_ascii c) + 32) 256 ltac:(lia)). lia. }
        rewrite C1. change (ceqb (ToLower ltc) (ToLower "<")) with true. cbv match.
        assert (C2 : ceqb "!" c = false) by (apply ceqb_false; intros <-; vm_compute in SB; intuition congruence).
        change (ceqb "<" ltc) with true. cbv match. unfold StringEqual. cbn [strip]. change (ceqb "<" ltc) with true. cbv match. rewrite C2, AL. reflexivity. }
      rewrite ID. unfold elem_fuel. rewrite <- HE. 
      replace (2 * String.length (elem n) + 2)%nat with (S (2 * String.length (elem n) + 1))%nat by lia.
      apply elem_never.
  - split; [reflexivity|]. exists (decl +++ "<" +++ n). split.
    + cbn [stamp]. unfold elem. rewrite !sapp_assoc. reflexivity.
    + apply all_bytes_app; [|apply all_bytes_cons; [vm_compute; reflexivity | exact AN]].
      unfold decl. cbn [String.append]. repeat (apply all_bytes_cons; [vm_compute; reflexivity|]). apply all_bytes_nil.
Qed.
End Never.
