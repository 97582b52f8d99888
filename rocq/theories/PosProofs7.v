(** The first error counts: a wrong end tag within another element *)
From Coq Require Import ZArith List String Ascii Bool Lia.
From Verif Require Import Base XmlModel XmlSpec XmlProofs XmlProofs2 PosModel PosSpec PosProofs PosProofs3.
Import ListNotations.
Open Scope string_scope.
Open Scope list_scope.
Open Scope Z_scope.

Definition sure {A} (m : M A) (st : pst) (Q : A -> pst -> Prop) : Prop := exists st' a, m st = TOk st' a /\ Q a st'.

Lemma s_bind : forall A B (m : M A) (f : A -> M B) st Q R, sure m st Q -> (forall a st', Q a st' -> sure (f a) st' R) -> sure (mbind m f) st R.
Proof. intros A B m f st Q R [st' [a [E H]]] H2. unfold sure, mbind. rewrite E. apply H2. exact H. Qed.
Lemma s_ret : forall A (a : A) st (Q : A -> pst -> Prop), Q a st -> sure (ret a) st Q.
Proof. intros A a st Q H. exists st, a. auto. Qed.

Section First.
Variables (k : nat) (a w b r : string).
Hypothesis NA : xml_name a.
Hypothesis NB : xml_name b.
Hypothesis SW : spaces w.
Hypothesis WRONG : forall u, r <> b +++ ">" +++ u.
Let tl := "</" +++ r.
Let sb := "<" +++ b +++ ">" +++ tl.
Let sa := w +++ sb.
Let T := "<" +++ a +++ ">" +++ sa.
Hypothesis TA : ascii_text T.
Hypothesis TK : (String.length T < k)%nat.
Let e := EncUnknown.

Lemma s_stamp : forall now p st, okst T st p -> suffix now p -> sure (Stamp k e now) st (fun _ st' => errd st' = errd st /\ okst T st' now).
Proof.
  intros now p st O S. destruct (Stamp_pos T k e now p st TA TK O S) as [st' [E [E2 [O2 _]]]].
  exists st', tt. auto.
Qed.

Lemma s_err : forall x now p st, okst T st p -> suffix now p -> errd st = None ->
  sure (SetError k x e (Some now)) st (fun _ st' => exists pre, T = pre +++ now /\ errd st' = Some (x, fst (position pre), snd (position pre))).
Proof.
  intros x now p st O S N. unfold sure, SetError. rewrite N. unfold mbind.
  destruct (Stamp_pos T k e now p st TA TK O S) as [st' [-> [_ [_ [pre [P1 P2]]]]]].
  do 2 eexists. split; [reflexivity|]. exists pre. split; [exact P1|]. rewrite P2. reflexivity.
Qed.

Lemma s_err2 : forall x place st v, errd st = Some v -> sure (SetError k x e place) st (fun _ st' => errd st' = Some v).
Proof. intros x place st v E. exists st, tt. unfold SetError. rewrite E. auto. Qed.

Lemma strip_wrong : strip ("</" +++ b +++ ">") tl = None.
Proof.
  destruct (strip ("</" +++ b +++ ">") tl) as [u|] eqn:E; [|reflexivity]. apply strip_some in E. exfalso.
  apply (WRONG u). unfold tl in E. rewrite sapp_assoc in E. cbn [String.append] in E. injection E as E. rewrite E, sapp_assoc. reflexivity.
Qed.

Lemma skip_name : forall n t, xml_name n -> SkipWhiteSpace e (Some (n +++ t)) = Some (n +++ t).
Proof.
  intros n t [c [u [-> [SB _]]]]. cbn [String.append]. apply skip_id; [discriminate|].
  destruct (IsWhiteSpace c) eqn:WS; [|reflexivity]. apply ws_space in WS. unfold start_byte, space_byte in *. lia.
Qed.

Lemma attrs_gt : forall m t, tparse_attrs k (S m) e [] (Some (String ">" t)) = ret ([], AOpen t).
Proof. intros m t. reflexivity. Qed.

Definition told (st : pst) : Prop :=
  exists pre, T = pre +++ tl /\ errd st = Some (ErrEndTag, fst (position pre), snd (position pre)).

Lemma elem_b : forall m st, okst T st sb -> errd st = None ->
  sure (tparse_elem k (S (S m)) e (Some sb)) st (fun x st' => snd x = None /\ told st').
Proof.
  intros m st O N. change (tparse_elem k (S (S m)) e (Some sb)) with
    (Stamp k e sb ;;;
      (let (name, p1) := ReadName (SkipWhiteSpace e (Some (b +++ ">" +++ tl))) in
       match p1 with
       | None | Some EmptyString => SetError k ErrName e (SkipWhiteSpace e (Some (b +++ ">" +++ tl))) ;;; ret (XElem name [] [], None)
       | Some s1 =>
           '(attrs, en) <- tparse_attrs k (S (String.length s1)) e [] (Some s1) ;;
           match en with
           | AFail er => ret (XElem name attrs [], None)
           | AEmpty r => ret (XElem name attrs [], Some r)
           | AOpen r =>
               '(ch, q) <- tread_value k (S m) e (SkipWhiteSpace e (Some r)) ;;
               match q with
               | None | Some EmptyString => ret (XElem name attrs ch, None)
               | Some s2 =>
                   match strip ("</" +++ name +++ ">") s2 with
                   | Some r2 => ret (XElem name attrs ch, Some r2)
                   | None => SetError k ErrEndTag e (Some s2) ;;; ret (XElem name attrs ch, None)
                   end
               end
           end
       end)).
  eapply s_bind; [apply (s_stamp sb sb st O); apply suffix_refl|]. intros [] st1 [E1 O1].
  rewrite (skip_name b _ NB). change (b +++ ">" +++ tl) with (b +++ String ">" tl). rewrite (ReadName_app b ">" tl NB eq_refl).
  cbv match. rewrite attrs_gt. eapply s_bind; [apply (s_ret _ _ st1 (fun x st' => x = ([], AOpen tl) /\ st' = st1)); auto|].
  intros x st2 [-> ->]. cbv match beta.
  assert (SK : SkipWhiteSpace e (Some tl) = Some tl) by reflexivity. rewrite SK.
  assert (RV : tread_value k (S m) e (Some tl) = ret ([], Some tl)) by reflexivity. rewrite RV.
  eapply s_bind; [apply (s_ret _ _ st1 (fun x st' => x = ([], Some tl) /\ st' = st1)); auto|].
  intros x st2 [-> ->]. cbv match beta.
  assert (HT : exists c t, tl = String c t) by (do 2 eexists; reflexivity). destruct HT as [c [t HT]].
  rewrite HT. cbv match. rewrite <- HT. rewrite strip_wrong. 
  eapply s_bind.
  - apply (s_err ErrEndTag tl sb st1 O1); [|congruence]. unfold sb. exists ("<" +++ b +++ ">"). rewrite !sapp_assoc. reflexivity.
  - intros [] st2 H. apply s_ret. split; [reflexivity | exact H].
Qed.

Lemma id_b : identify sb = KElem.
Proof.
  destruct NB as [c [t [E [SB _]]]]. unfold sb. rewrite E. cbn [String.append]. unfold identify.
  assert (AL := start_byte_alpha c SB). cbn [StringEqualNoCase].
  assert (C1 : ceqb (ToLower c) (ToLower "?") = false).
  { clear -SB. destruct c as [[] [] [] [] [] [] [] []]; try reflexivity; exfalso; vm_compute in SB; intuition congruence. }
  rewrite C1. change (ceqb (ToLower "<") (ToLower "<")) with true. cbv match.
  unfold StringEqual. cbn [strip]. change (ceqb "<" "<") with true. cbv match.
  assert (C2 : ceqb "!" c = false) by (apply ceqb_false; intros <-; vm_compute in SB; intuition congruence).
  rewrite C2, AL. reflexivity.
Qed.
Lemma id_a : identify T = KElem.
Proof.
  destruct NA as [c [t [E [SB _]]]]. unfold T. rewrite E. cbn [String.append]. unfold identify.
  assert (AL := start_byte_alpha c SB). cbn [StringEqualNoCase].
  assert (C1 : ceqb (ToLower c) (ToLower "?") = false).
  { clear -SB. destruct c as [[] [] [] [] [] [] [] []]; try reflexivity; exfalso; vm_compute in SB; intuition congruence. }
  rewrite C1. change (ceqb (ToLower "<") (ToLower "<")) with true. cbv match.
  unfold StringEqual. cbn [strip]. change (ceqb "<" "<") with true. cbv match.
  assert (C2 : ceqb "!" c = false) by (apply ceqb_false; intros <-; vm_compute in SB; intuition congruence).
  rewrite C2, AL. reflexivity.
Qed.

Lemma not_end : StringEqual sb "</" = false.
Proof.
  destruct NB as [c [t [E [SB _]]]]. unfold sb. rewrite E. cbn [String.append]. unfold StringEqual. cbn [strip].
  change (ceqb "<" "<") with true. cbv match.
  assert (C2 : ceqb "/" c = false) by (apply ceqb_false; intros <-; vm_compute in SB; intuition congruence).
  rewrite C2. reflexivity.
Qed.

Lemma skip_sa : SkipWhiteSpace e (Some sa) = Some sb.
Proof.
  unfold sa. assert (W : all_ws w = true).
  { clear -SW. induction w as [|c u IH]; [reflexivity|]. cbn [all_ws]. rewrite IH.
    - rewrite andb_true_r. assert (S := SW c (contains_byte_here c u)). unfold IsWhiteSpace. cbv zeta. unfold space_byte in S.
      apply orb_true_iff. rewrite andb_true_iff, !Z.leb_le, Z.eqb_eq. exact S.
    - intros d H. apply SW. apply contains_byte_cons. exact H. }
  assert (NE : w +++ sb <> "") by (destruct w; discriminate).
  change (SkipWhiteSpace EncUnknown (Some (w +++ sb)) = Some sb).
  rewrite (skip_some _ NE), (skip_ws_app w sb W). reflexivity.
Qed.

Lemma value_eq : forall m c t, tread_value k (S m) e (Some (String c t)) =
   (if negb (ceqb c ltc) then
     '(v, q) <- tparse_text k e (String c t) ;;
     '(ch, q2) <- tread_value k m e (SkipWhiteSpace e q) ;;
     ret ((if blank v then ch else XText v :: ch), q2)
   else if StringEqual (String c t) "</" then ret ([], Some (String c t))
   else
     '(x, q) <- (match identify (String c t) with
                 | KDecl => tparse_decl k e (String c t)
                 | KComment => tparse_comment k e (String c t)
                 | KUnknown => tparse_unknown k e (String c t)
                 | KElem => tparse_elem k m e (Some (String c t))
                 end) ;;
     '(ch, q2) <- tread_value k m e (SkipWhiteSpace e q) ;;
     ret (x :: ch, q2)).
Proof. reflexivity. Qed.

Lemma value_a : forall m st, okst T st sb -> errd st = None ->
  sure (tread_value k (S (S (S m))) e (Some sb)) st (fun x st' => snd x = None /\ told st').
Proof.
  intros m st O N. assert (HT : exists t, sb = String ltc t) by (eexists; reflexivity). destruct HT as [t HT].
  rewrite HT, value_eq. change (negb (ceqb ltc ltc)) with false. cbv match. rewrite <- HT, not_end, id_b.
  eapply s_bind; [apply (elem_b m st O N)|]. intros [x q] st1 [E1 [pre [P1 P2]]]. cbn [snd] in E1. subst q.
  change (tread_value k (S (S m)) e (SkipWhiteSpace e None)) with (SetError k ErrValue e None ;;; ret ([] : list xnode, None : ptr)).
  eapply s_bind; [eapply s_bind; [apply (s_err2 ErrValue None st1 _ P2)|]|].
  - intros [] st2 E2. apply (s_ret _ _ st2 (fun x st' => x = ([], None) /\ errd st' = Some (ErrEndTag, fst (position pre), snd (position pre)))). auto.
  - intros y st2 [-> E2]. apply s_ret. split; [reflexivity|]. exists pre. auto.
Qed.

Lemma elem_a : forall m st, okst T st T -> errd st = None ->
  sure (tparse_elem k (S (S (S (S m)))) e (Some T)) st (fun x st' => snd x = None /\ told st').
Proof.
  intros m st O N. change (tparse_elem k (S (S (S (S m)))) e (Some T)) with
    (Stamp k e T ;;;
      (let (name, p1) := ReadName (SkipWhiteSpace e (Some (a +++ ">" +++ sa))) in
       match p1 with
       | None | Some EmptyString => SetError k ErrName e (SkipWhiteSpace e (Some (a +++ ">" +++ sa))) ;;; ret (XElem name [] [], None)
       | Some s1 =>
           '(attrs, en) <- tparse_attrs k (S (String.length s1)) e [] (Some s1) ;;
           match en with
           | AFail er => ret (XElem name attrs [], None)
           | AEmpty r => ret (XElem name attrs [], Some r)
           | AOpen r =>
               '(ch, q) <- tread_value k (S (S (S m))) e (SkipWhiteSpace e (Some r)) ;;
               match q with
               | None | Some EmptyString => ret (XElem name attrs ch, None)
               | Some s2 =>
                   match strip ("</" +++ name +++ ">") s2 with
                   | Some r2 => ret (XElem name attrs ch, Some r2)
                   | None => SetError k ErrEndTag e (Some s2) ;;; ret (XElem name attrs ch, None)
                   end
               end
           end
       end)).
  eapply s_bind; [apply (s_stamp T T st O); apply suffix_refl|]. intros [] st1 [E1 O1].
  rewrite (skip_name a _ NA). change (a +++ ">" +++ sa) with (a +++ String ">" sa). rewrite (ReadName_app a ">" sa NA eq_refl).
  cbv match. rewrite attrs_gt. eapply s_bind; [apply (s_ret _ _ st1 (fun x st' => x = ([], AOpen sa) /\ st' = st1)); auto|].
  intros x st2 [-> ->]. cbv match beta. rewrite skip_sa.
  eapply s_bind; [apply value_a; [|congruence]|].
  - eapply okst_suffix; [exact O1|]. exists ("<" +++ a +++ ">" +++ w). unfold T, sa. rewrite !sapp_assoc. reflexivity.
  - intros [ch q] st2 [E2 H2]. cbn [snd] in E2. subst q. cbv match beta. apply s_ret. split; [reflexivity | exact H2].
Qed.

Lemma load_first : exists st doc, tLoadFile k T = TOk st doc /\
  errd st = Some (ErrEndTag, fst (position ("<" +++ a +++ ">" +++ w +++ "<" +++ b +++ ">")),
                             snd (position ("<" +++ a +++ ">" +++ w +++ "<" +++ b +++ ">"))).
Proof.
  set (st0 := mkP 0 0 (Some T) None).
  assert (O : okst T st0 T).
  { exists T. split; [reflexivity|]. split; [|left; apply suffix_refl].
    exists "", 0. split; [reflexivity|]. split; [reflexivity|]. split; [apply clean_0 | cbn; lia]. }
  assert (SE : start_enc T = e).
  { unfold T. destruct NA as [c [t [E _]]]. rewrite E. cbn [String.append]. unfold start_enc.
    change (byte "<" =? 239) with false. destruct (t +++ String ">" sa); reflexivity. }
  assert (SK : SkipWhiteSpace EncUnknown (Some T) = Some T) by reflexivity.
  assert (S : sure (fun st => tLoadFile k T) st0 (fun _ st => told st)).
  { unfold sure, tLoadFile. assert (EQ : String.eqb T "" = false) by reflexivity. rewrite EQ.
    unfold tparse_doc. rewrite SE. fold st0. unfold e. rewrite SK.
    match goal with |- exists st' x, ?m st0 = _ /\ _ => change (sure m st0 (fun _ st' => told st')) end.
    assert (HT : exists t, T = String ltc t) by (eexists; reflexivity). destruct HT as [t HT].
    assert (LN : exists m, String.length T = S m) by (rewrite HT; eexists; reflexivity). destruct LN as [m LN].
    eapply s_bind with (Q := fun l st => l <> [] /\ told st).
    - rewrite LN. cbn [tdoc_loop]. rewrite HT. change (negb (ceqb ltc ltc)) with false. cbv match. rewrite <- HT.
      eapply s_bind.
      + unfold tparse_node. rewrite id_a. unfold elem_fuel. rewrite LN.
        replace (2 * S m + 2)%nat with (S (S (S (S (2 * m)))))%nat by lia. apply (elem_a (2 * m) st0 O eq_refl).
      + intros [x q] st1 [E1 H1]. cbn [snd] in E1. subst q. cbv match beta zeta.
        exists st1, [x]. split; [|split; [discriminate | exact H1]]. destruct m; reflexivity.
    - intros [|x l] st1 [H1 H2]; [congruence|]. apply s_ret. exact H2. }
  destruct S as [st [doc [E [pre [P1 P2]]]]]. exists st, doc. split; [exact E|].
  assert (pre = "<" +++ a +++ ">" +++ w +++ "<" +++ b +++ ">") as <-; [|exact P2].
  apply (sapp_cancel_r tl). rewrite <- P1. unfold T, sa, sb. rewrite !sapp_assoc. reflexivity.
Qed.
End First.
