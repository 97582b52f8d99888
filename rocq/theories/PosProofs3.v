(** The places of errors in a text of 7-bit characters *)
From Coq Require Import ZArith List String Ascii Bool Lia.
From Verif Require Import Base XmlModel XmlSpec XmlProofs XmlProofs2 PosModel PosSpec PosProofs.
Import ListNotations.
Open Scope string_scope.
Open Scope list_scope.
Open Scope Z_scope.

Lemma sapp_cancel_r : forall t a b, a +++ t = b +++ t -> a = b.
Proof.
  intros t. induction a as [|c a IH]; intros [|d b] H; auto.
  - apply (f_equal String.length) in H. cbn in H. rewrite slen_app in H. lia.
  - apply (f_equal String.length) in H. cbn in H. rewrite slen_app in H. lia.
  - cbn in H. injection H as -> H. f_equal. apply IH. exact H.
Qed.

Lemma snoc_assoc : forall a c t, (a +++ String c "") +++ t = a +++ String c t.
Proof. intros. rewrite sapp_assoc. reflexivity. Qed.

Lemma suffix_proper : forall x c t, suffix x (String c t) -> (String.length x < S (String.length t))%nat -> suffix x t.
Proof.
  intros x c t [[|d a] E] L; cbn in E.
  - subst x. cbn in L. lia.
  - injection E as _ E. exists a. exact E.
Qed.

Lemma suffix_same : forall x s, suffix x s -> (String.length s <= String.length x)%nat -> x = s.
Proof.
  intros x s [a E] L. assert (E2 := E). apply (f_equal String.length) in E2. rewrite slen_app in E2.
  destruct a; [symmetry; exact E | cbn in E2; lia].
Qed.

(** ** Walking *)
Lemma walk_app : forall a b r c l, walk r c l (a +++ b) = let '(r', c', l') := walk r c l a in walk r' c' l' b.
Proof.
  induction a as [|x a IH]; intros b r c l; [reflexivity|]. cbn [String.append walk].
  destruct (pair l (byte x)); [apply IH|]. destruct ((byte x =? 13) || (byte x =? 10)); [apply IH|].
  destruct (byte x =? 9); apply IH.
Qed.

Definition clean (l : Z) (q : string) : Prop := match q with String d _ => pair l (byte d) = false | EmptyString => True end.
Lemma clean_0 : forall q, clean 0 q.
Proof. intros [|d q]; exact I || reflexivity. Qed.

Definition at_cursor (T : string) (r c : Z) (q : string) : Prop :=
  exists pre l, T = pre +++ q /\ walk 0 0 0 pre = (r, c, l) /\ clean l q /\ 0 <= c.

Lemma at_cursor_pos : forall T r c q, at_cursor T r c q -> exists pre, T = pre +++ q /\ position pre = (r, c).
Proof.
  intros T r c q [pre [l [E [W _]]]]. exists pre. split; [exact E|]. unfold position. rewrite W. reflexivity.
Qed.

Lemma ascii_head : forall T pre c t, ascii_text T -> T = pre +++ String c t -> byte c < 128.
Proof. intros T pre c t A ->. apply A. exists pre, t. reflexivity. Qed.

(** one step of a plain character *)
Lemma cursor_step : forall T r c x t r' c' l', at_cursor T r c (String x t) ->
  (forall l, pair l (byte x) = false -> walk r c l (String x "") = (r', c', l')) -> clean l' t -> 0 <= c' ->
  at_cursor T r' c' t.
Proof.
  intros T r c x t r' c' l' [pre [l [E [W [C _]]]]] H C' P. exists (pre +++ String x ""), l'.
  split; [rewrite snoc_assoc; exact E|]. split; [|split; assumption].
  rewrite walk_app, W. apply H. exact C.
Qed.

Lemma stamp_loop_pos : forall k e now T q r c, ascii_text T -> at_cursor T r c q -> suffix now q ->
  (String.length q < k)%nat ->
  exists r' c' q', stamp_loop k e (String.length now) q r c = Some (r', c', Some q') /\ at_cursor T r' c' q' /\
    (q' = now \/ exists d, now = String d q') /\ exists pre, T = pre +++ now /\ position pre = (r', c').
Proof.
  induction k; intros e now T q r c A H SU L; [lia|]. cbn [stamp_loop].
  destruct (String.length now <? String.length q)%nat eqn:LT.
  2:{ apply Nat.ltb_ge in LT. assert (now = q) by (apply suffix_same; assumption). subst now.
      exists r, c, q. split; [reflexivity|]. split; [exact H|]. split; [left; reflexivity|]. apply at_cursor_pos. exact H. }
  apply Nat.ltb_lt in LT. destruct q as [|x t]; [cbn in LT; lia|].
  assert (SU' := suffix_proper _ _ _ SU LT). cbn [String.length] in L.
  assert (P0 : 0 <= c) by (destruct H as [? [? [_ [_ [_ P]]]]]; exact P).
  destruct (byte x =? 13) eqn:E13; [|destruct (byte x =? 10) eqn:E10].
  - apply Z.eqb_eq in E13.
    assert (STEP : forall l, pair l (byte x) = false -> walk r c l (String x "") = (r + 1, 0, 13)).
    { intros l HP. cbn [walk]. rewrite HP, E13. reflexivity. }
    destruct t as [|d u].
    + assert (H1 : at_cursor T (r + 1) 0 "") by (eapply cursor_step; [exact H | exact STEP | exact I | lia]).
      apply (IHk e now T "" (r + 1) 0 A H1 SU'). cbn in *; lia.
    + destruct (byte d =? 10) eqn:D.
      * apply Z.eqb_eq in D.
        assert (H1 : at_cursor T (r + 1) 0 u).
        { destruct H as [pre [l [E [W [C _]]]]]. exists (pre +++ String x (String d "")), 0.
          split; [rewrite sapp_assoc; exact E|]. split; [|split; [apply clean_0 | lia]].
          rewrite walk_app, W. cbn [walk]. cbn [clean] in C. rewrite C, E13, D. reflexivity. }
        destruct (Nat.eq_dec (String.length now) (String.length (String d u))) as [EQ|NE].
        -- assert (now = String d u) by (apply suffix_same; [exact SU' | lia]). subst now.
           exists (r + 1), 0, u. split.
           ++ destruct k; [cbn in L; lia|]. cbn [stamp_loop].
              assert ((String.length (String d u) <? String.length u)%nat = false) as -> by (apply Nat.ltb_ge; cbn; lia).
              reflexivity.
           ++ split; [exact H1|]. split; [right; exists d; reflexivity|].
              destruct H as [pre [l [E [W [C _]]]]]. exists (pre +++ String x "").
              split; [rewrite snoc_assoc; exact E|]. unfold position. rewrite walk_app, W. cbn [clean] in C.
              rewrite (STEP l C). reflexivity.
        -- apply (IHk e now T u (r + 1) 0 A H1); [|cbn in L; lia].
           eapply suffix_proper; [exact SU'|]. apply suffix_len in SU'. cbn in *. lia.
      * assert (H1 : at_cursor T (r + 1) 0 (String d u)).
        { eapply cursor_step; [exact H | exact STEP | | lia]. cbn [clean]. unfold pair. rewrite D. reflexivity. }
        apply (IHk e now T (String d u) (r + 1) 0 A H1 SU'). lia.
  - apply Z.eqb_eq in E10.
    assert (STEP : forall l, pair l (byte x) = false -> walk r c l (String x "") = (r + 1, 0, 10)).
    { intros l HP. cbn [walk]. rewrite HP, E10. reflexivity. }
    destruct t as [|d u].
    + assert (H1 : at_cursor T (r + 1) 0 "") by (eapply cursor_step; [exact H | exact STEP | exact I | lia]).
      apply (IHk e now T "" (r + 1) 0 A H1 SU'). cbn in *; lia.
    + destruct (byte d =? 13) eqn:D.
      * apply Z.eqb_eq in D.
        assert (H1 : at_cursor T (r + 1) 0 u).
        { destruct H as [pre [l [E [W [C _]]]]]. exists (pre +++ String x (String d "")), 0.
          split; [rewrite sapp_assoc; exact E|]. split; [|split; [apply clean_0 | lia]].
          rewrite walk_app, W. cbn [walk]. cbn [clean] in C. rewrite C, E10, D. reflexivity. }
        destruct (Nat.eq_dec (String.length now) (String.length (String d u))) as [EQ|NE].
        -- assert (now = String d u) by (apply suffix_same; [exact SU' | lia]). subst now.
           exists (r + 1), 0, u. split.
           ++ destruct k; [cbn in L; lia|]. cbn [stamp_loop].
              assert ((String.length (String d u) <? String.length u)%nat = false) as -> by (apply Nat.ltb_ge; cbn; lia).
              reflexivity.
           ++ split; [exact H1|]. split; [right; exists d; reflexivity|].
              destruct H as [pre [l [E [W [C _]]]]]. exists (pre +++ String x "").
              split; [rewrite snoc_assoc; exact E|]. unfold position. rewrite walk_app, W. cbn [clean] in C.
              rewrite (STEP l C). reflexivity.
        -- apply (IHk e now T u (r + 1) 0 A H1); [|cbn in L; lia].
           eapply suffix_proper; [exact SU'|]. apply suffix_len in SU'. cbn in *. lia.
      * assert (H1 : at_cursor T (r + 1) 0 (String d u)).
        { eapply cursor_step; [exact H | exact STEP | | lia]. cbn [clean]. unfold pair. rewrite D. reflexivity. }
        apply (IHk e now T (String d u) (r + 1) 0 A H1 SU'). lia.
  - assert (PF : forall l, pair l (byte x) = false).
    { intros l. unfold pair. rewrite E13, E10, !andb_false_r. reflexivity. }
    destruct (byte x =? 9) eqn:E9.
    + assert (H1 : at_cursor T r ((Z.quot c tabsize + 1) * tabsize) t).
      { eapply cursor_step; [exact H | | apply clean_0 | unfold tabsize; assert (0 <= Z.quot c 4) by (apply Z.quot_pos; lia); lia].
        intros l _. cbn [walk]. rewrite PF, E13, E10, E9. cbn [orb]. unfold tabsize.
        rewrite Z.quot_div_nonneg by lia. rewrite (Z.mul_comm 4). reflexivity. }
      apply (IHk e now T t r _ A H1 SU'). lia.
    + assert (B : byte x < 128) by (destruct H as [pre [l [E _]]]; eapply ascii_head; eauto).
      assert (byte x =? 239 = false) as -> by (apply Z.eqb_neq; lia).
      assert ((if is_utf8 e then utf8_len x else 1) = 1) as ->.
      { destruct (is_utf8 e); [|reflexivity]. unfold utf8_len. assert (byte x <? 194 = true) as -> by (apply Z.ltb_lt; lia). reflexivity. }
      cbv zeta. assert (Z.of_nat (String.length (String x t)) <? 1 = false) as -> by (apply Z.ltb_ge; cbn [String.length]; lia).
      change (Z.to_nat 1) with 1%nat. cbn [drop].
      assert (H1 : at_cursor T r (c + 1) t).
      { eapply cursor_step; [exact H | | apply clean_0 | lia].
        intros l _. cbn [walk]. rewrite PF, E13, E10, E9. reflexivity. }
      apply (IHk e now T t r _ A H1 SU'). lia.
Qed.

(** ** The state of the parser at [p] *)
Definition okst (T : string) (st : pst) (p : string) : Prop :=
  exists q, stamp st = Some q /\ at_cursor T (c_row st) (c_col st) q /\
    (suffix p q \/ exists d pre, p = String d q /\ T = pre +++ p /\ position pre = (c_row st, c_col st)).

Lemma okst_suffix : forall T st p p', okst T st p -> suffix p' p -> okst T st p'.
Proof.
  intros T st p p' [q [E [C R]]] [a S]. exists q. split; [exact E|]. split; [exact C|]. destruct R as [R|[d [pre [-> [R1 R2]]]]].
  - left. eapply suffix_trans; [exists a; exact S | exact R].
  - destruct a as [|x a]; cbn in S.
    + subst p'. right. exists d, pre. auto.
    + injection S as _ S. left. exists a. exact S.
Qed.

Lemma okst_in : forall T st p, okst T st p -> suffix p T.
Proof.
  intros T st p [q [E [[pre [l [C _]]] R]]]. destruct R as [R|[d [pre' [-> [R1 R2]]]]].
  - eapply suffix_trans; [exact R|]. exists pre. exact C.
  - exists pre'. exact R1.
Qed.

Lemma Stamp_pos : forall T k e now p st, ascii_text T -> (String.length T < k)%nat -> okst T st p -> suffix now p ->
  exists st', Stamp k e now st = TOk st' tt /\ errd st' = errd st /\ okst T st' now /\
    exists pre, T = pre +++ now /\ position pre = (c_row st', c_col st').
Proof.
  intros T k e now p st A L H SU. assert (H' := okst_suffix _ _ _ _ H SU). clear H. rename H' into H.
  destruct H as [q [E [C R]]]. unfold Stamp. rewrite E.
  destruct R as [R|[d [pre [-> [R1 R2]]]]].
  - destruct (stamp_loop_pos k e now T q (c_row st) (c_col st) A C R) as [r' [c' [q' [-> [C' [Q P]]]]]].
    { destruct C as [pre [l [-> _]]]. rewrite slen_app in L. lia. }
    eexists. split; [reflexivity|]. split; [reflexivity|]. split; [|exact P].
    exists q'. split; [reflexivity|]. split; [exact C'|]. destruct Q as [->|[d ->]]; [left; apply suffix_refl|].
    destruct P as [pre [P1 P2]]. right. exists d, pre. auto.
  - destruct k; [lia|]. cbn [stamp_loop].
    assert ((String.length (String d q) <? String.length q)%nat = false) as -> by (apply Nat.ltb_ge; cbn; lia).
    eexists. split; [reflexivity|]. split; [reflexivity|]. split; [|exists pre; auto].
    exists q. split; [reflexivity|]. split; [exact C|]. right. exists d, pre. auto.
Qed.

(** ** Triples *)
Definition holds {A} (P : pst -> Prop) (m : M A) (Q : A -> pst -> Prop) : Prop :=
  forall st, P st -> match m st with TOk st' a => Q a st' | TWait => False | _ => True end.

Lemma h_bind : forall A B P (m : M A) (f : A -> M B) Q R, holds P m Q -> (forall a, holds (Q a) (f a) R) -> holds P (mbind m f) R.
Proof.
  intros A B P m f Q R H1 H2 st HP. unfold mbind. specialize (H1 st HP). destruct (m st) as [st' a| | |]; auto. apply H2. exact H1.
Qed.
Lemma h_ret : forall A (P : pst -> Prop) (a : A) (Q : A -> pst -> Prop), (forall st, P st -> Q a st) -> holds P (ret a) Q.
Proof. intros A P a Q H st HP. apply H. exact HP. Qed.
Lemma h_pre : forall A (P P' : pst -> Prop) (m : M A) Q, (forall st, P st -> P' st) -> holds P' m Q -> holds P m Q.
Proof. intros A P P' m Q H1 H2 st HP. apply H2. apply H1. exact HP. Qed.
Lemma h_post : forall A (P : pst -> Prop) (m : M A) (Q Q' : A -> pst -> Prop), (forall a st, Q a st -> Q' a st) -> holds P m Q -> holds P m Q'.
Proof. intros A P m Q Q' H1 H2 st HP. specialize (H2 st HP). destruct (m st); auto. Qed.
Lemma h_lift : forall A (P : pst -> Prop) (r : pr A) (Q : A -> pst -> Prop), (forall a st, r = POk a -> P st -> Q a st) -> holds P (lift r) Q.
Proof. intros A P [a| |] Q H st HP; cbn; auto. Qed.
Lemma h_fuel : forall A P (Q : A -> pst -> Prop), holds P (fun _ => TFuel) Q.
Proof. intros A P Q st _. exact I. Qed.
Lemma h_false : forall A (P : pst -> Prop) (m : M A) (Q : A -> pst -> Prop), (forall st, P st -> False) -> holds P m Q.
Proof. intros A P m Q H st HP. destruct (H st HP). Qed.

Definition good_err (T : string) (o : option (xerr * Z * Z)) : Prop :=
  match o with
  | None => True
  | Some (x, r, c) => (r = -1 /\ c = -1 /\ no_place x T) \/
      exists pre suf, T = pre +++ suf /\ position pre = (r, c) /\ at_place x pre suf
  end.
Definition inv (T : string) (p : ptr) (st : pst) : Prop :=
  good_err T (errd st) /\ match p with Some s => okst T st s | None => True end.

Lemma inv_suffix : forall T s s' st, inv T (Some s) st -> suffix s' s -> inv T (Some s') st.
Proof. intros T s s' st [H1 H2] S. split; [exact H1 | eapply okst_suffix; eauto]. Qed.
Lemma inv_psuf : forall T s q st, inv T (Some s) st -> psuf q s -> inv T q st.
Proof. intros T s [z|] st H S; [eapply inv_suffix; eauto | split; [apply H | exact I]]. Qed.
Lemma inv_none : forall T p st, inv T p st -> inv T None st.
Proof. intros T p st [H _]. split; [exact H | exact I]. Qed.

Section Positions.
Variable T : string.
Variable k : nat.
Hypothesis TA : ascii_text T.
Hypothesis TK : (String.length T < k)%nat.

Lemma h_stamp : forall e now p, suffix now p -> holds (inv T (Some p)) (Stamp k e now) (fun _ => inv T (Some now)).
Proof.
  intros e now p S st [H1 H2]. destruct (Stamp_pos T k e now p st TA TK H2 S) as [st' [-> [E [O _]]]].
  split; [rewrite E; exact H1 | exact O].
Qed.

Lemma h_err : forall x e now p, suffix now p -> (forall pre, T = pre +++ now -> at_place x pre now) ->
  holds (inv T (Some p)) (SetError k x e (Some now)) (fun _ st => inv T (Some now) st /\ errd st <> None).
Proof.
  intros x e now p S AP st [H1 H2]. unfold SetError. destruct (errd st) as [er|] eqn:E.
  - split; [|congruence]. split; [rewrite E; exact H1 | eapply okst_suffix; eauto].
  - unfold mbind. destruct (Stamp_pos T k e now p st TA TK H2 S) as [st' [-> [_ [O [pre [P1 P2]]]]]].
    split; [|discriminate]. split; [|exact O]. cbn [errd good_err]. right. exists pre, now. auto.
Qed.

Lemma h_err0 : forall x e p, no_place x T ->
  holds (inv T p) (SetError k x e None) (fun _ st => inv T p st /\ errd st <> None).
Proof.
  intros x e p N st [H1 H2]. unfold SetError. destruct (errd st) as [er|] eqn:E.
  - split; [|congruence]. split; [rewrite E; exact H1 | exact H2].
  - split; [|discriminate]. split; [cbn [errd good_err]; left; auto | exact H2].
Qed.

End Positions.

(** ** White space and names in 7-bit texts *)
Lemma asc_suffix : forall s s', ascii_text s -> suffix s' s -> ascii_text s'.
Proof. intros s s' H [a ->] c [x [y E]]. apply H. exists (a +++ x), y. rewrite E, sapp_assoc. reflexivity. Qed.

Lemma asc_head : forall c t, ascii_text (String c t) -> byte c < 128.
Proof. intros c t H. apply H. exists "", t. reflexivity. Qed.

Lemma skip_utf8_ascii : forall n s, ascii_text s -> (String.length s <= n)%nat -> skip_ws_utf8 n s = skip_ws s.
Proof.
  induction n; intros s A L; [destruct s; [reflexivity | cbn in L; lia]|]. cbn [skip_ws_utf8].
  assert (bom_rest s = None) as ->.
  { destruct s as [|a [|b [|c s]]]; try reflexivity. unfold bom_rest.
    assert (byte a =? 239 = false) as -> by (apply asc_head in A; apply Z.eqb_neq; lia). reflexivity. }
  destruct s as [|c t]; [reflexivity|]. cbn [skip_ws]. destruct (IsWhiteSpace c); [|reflexivity].
  apply IHn; [eapply asc_suffix; [exact A | apply suffix_tail] | cbn in L; lia].
Qed.

Lemma skip_ascii : forall e c t, ascii_text (String c t) -> SkipWhiteSpace e (Some (String c t)) = Some (skip_ws (String c t)).
Proof.
  intros e c t A. unfold SkipWhiteSpace. f_equal. destruct (is_utf8 e); [|reflexivity]. apply skip_utf8_ascii; [exact A | lia].
Qed.

Lemma ws_space : forall c, IsWhiteSpace c = true -> space_byte (byte c).
Proof.
  intros c H. unfold IsWhiteSpace in H. cbv zeta in H. unfold space_byte.
  apply orb_true_iff in H. rewrite andb_true_iff, !Z.leb_le, Z.eqb_eq in H. exact H.
Qed.

Lemma skip_ws_spec : forall s, exists w, s = w +++ skip_ws s /\ spaces w.
Proof.
  induction s as [|c t IH]; [exists ""; split; [reflexivity | apply all_bytes_nil]|]. cbn [skip_ws].
  destruct (IsWhiteSpace c) eqn:W.
  - destruct IH as [w [E S]]. exists (String c w). split; [cbn; congruence|].
    apply all_bytes_cons; [apply ws_space; exact W | exact S].
  - exists "". split; [reflexivity | apply all_bytes_nil].
Qed.

Lemma skip_ws_head : forall s c t, skip_ws s = String c t -> IsWhiteSpace c = false.
Proof.
  induction s as [|d u IH]; intros c t H; [discriminate|]. cbn [skip_ws] in H. destruct (IsWhiteSpace d) eqn:W; [eauto|].
  injection H as -> _. exact W.
Qed.

Lemma skip_id_ascii : forall e c t, ascii_text (String c t) -> IsWhiteSpace c = false ->
  SkipWhiteSpace e (Some (String c t)) = Some (String c t).
Proof. intros e c t A W. rewrite skip_ascii by exact A. cbn [skip_ws]. rewrite W. reflexivity. Qed.

Lemma letter_start : forall c, IsAlpha c || ceqb c "_" = true -> start_byte (byte c).
Proof.
  intros c H. apply orb_true_iff in H. destruct H as [H|H].
  - unfold IsAlpha in H. unfold start_byte. destruct (byte c <? 127) eqn:L.
    + unfold isletter in H. apply orb_true_iff in H. rewrite !andb_true_iff, !Z.leb_le in H. lia.
    + apply Z.ltb_ge in L. lia.
  - apply ceqb_true in H. subst c. right. right. left. reflexivity.
Qed.
Lemma start_letter : forall c, start_byte (byte c) -> IsAlpha c || ceqb c "_" = true.
Proof. exact start_byte_alpha. Qed.

Lemma name_char_byte : forall c, name_char c = true -> name_byte (byte c).
Proof.
  intros c H. unfold name_char in H. rewrite !orb_true_iff, !ceqb_true in H. unfold name_byte.
  destruct H as [[[[H|H]|H]|H]|H]; try (subst c; vm_compute; intuition congruence).
  unfold IsAlphaNum in H. unfold start_byte. destruct (byte c <? 127) eqn:L.
  - unfold isletter, isdigit_b in H. rewrite !orb_true_iff, !andb_true_iff, !Z.leb_le in H. lia.
  - apply Z.ltb_ge in L. lia.
Qed.

Lemma read_name_bytes : forall s n r, read_name_loop s = (n, r) -> all_bytes name_byte n.
Proof.
  induction s as [|c t IH]; intros n r H; cbn in H.
  - injection H as <- _. apply all_bytes_nil.
  - destruct (name_char c) eqn:N; [|injection H as <- _; apply all_bytes_nil].
    destruct (read_name_loop t) as [n1 r1]. injection H as <- _.
    apply all_bytes_cons; [apply name_char_byte; exact N | eapply IH; reflexivity].
Qed.

Lemma ReadName_spec : forall c t, start_byte (byte c) ->
  exists n r, ReadName (Some (String c t)) = (n, Some r) /\ String c t = n +++ r /\ xml_name n.
Proof.
  intros c t SB. unfold ReadName. rewrite (start_letter c SB).
  destruct (read_name_loop (String c t)) as [n r] eqn:E. exists n, r. split; [reflexivity|].
  split; [apply read_name_loop_split; exact E|].
  cbn [read_name_loop] in E. rewrite (alpha_name c (start_letter c SB)) in E.
  destruct (read_name_loop t) as [n1 r1] eqn:E1. injection E as <- _.
  exists c, n1. split; [reflexivity|]. split; [exact SB|]. exact (read_name_bytes _ _ _ E1).
Qed.
