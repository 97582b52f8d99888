(** When the parser with positions returns: Stamp ends unless a byte EF is among the last two bytes. *)
From Coq Require Import ZArith List String Ascii Bool Lia.
From Verif Require Import Base XmlModel XmlSpec XmlProofs XmlProofs2 PosModel PosSpec PosProofs.
Import ListNotations.
Open Scope string_scope.
Open Scope list_scope.
Open Scope Z_scope.

(** [m] keeps [I] and does not wait *)
Definition keeps {A} (I : pst -> Prop) (m : M A) : Prop :=
  forall st, I st -> match m st with TOk st' _ => I st' | TWait => False | _ => True end.

Lemma keeps_bind : forall A B I (m : M A) (f : A -> M B), keeps I m -> (forall a, keeps I (f a)) -> keeps I (mbind m f).
Proof.
  intros A B I m f H1 H2 st P. unfold mbind. specialize (H1 st P). destruct (m st) as [st' a| | |]; auto.
  apply H2. exact H1.
Qed.
Lemma keeps_ret : forall A I (a : A), keeps I (ret a).
Proof. intros A I a st P. exact P. Qed.
Lemma keeps_lift : forall A I (r : pr A), keeps I (lift r).
Proof. intros A I [a| |] st P; cbn; auto. Qed.

Section Keeps.
Variable k : nat.
Variable I : pst -> Prop.
Hypothesis HS : forall e now, keeps I (Stamp k e now).
Hypothesis HI : forall st x r c, I st -> I (mkP (c_row st) (c_col st) (stamp st) (Some (x, r, c))).

Lemma keeps_SetError : forall x e place, keeps I (SetError k x e place).
Proof.
  intros x e place st P. unfold SetError. destruct (errd st); [exact P|].
  destruct place as [now|]; [|apply HI; exact P]. unfold mbind. specialize (HS e now st P).
  destruct (Stamp k e now st) as [st' u| | |]; auto.
Qed.

Ltac kp := repeat first
  [ match goal with |- keeps _ (mbind _ _) => apply keeps_bind; [|intros ?] end | apply keeps_ret | apply keeps_lift | apply HS | apply keeps_SetError
  | match goal with |- keeps _ (match ?x with _ => _ end) => destruct x end ].

Lemma keeps_attr : forall doc e p, keeps I (tparse_attr k doc e p).
Proof. intros doc e p. unfold tparse_attr. kp. Qed.

Lemma keeps_fuel : forall A, keeps I (fun _ => @TFuel A).
Proof. intros A st _. exact Logic.I. Qed.

Lemma keeps_attrs : forall n e acc p, keeps I (tparse_attrs k n e acc p).
Proof.
  induction n; intros e acc p; cbn [tparse_attrs]; [apply keeps_fuel|].
  destruct (SkipWhiteSpace e p) as [[|c t]|]; kp; try apply IHn. apply keeps_attr. 
Qed.

Lemma keeps_decl_loop : forall n e v c a p, keeps I (tdecl_loop k n e v c a p).
Proof.
  induction n; intros e v c a p; cbn [tdecl_loop]; [apply keeps_fuel|].
  destruct p as [[|d t]|]; kp; try apply IHn; apply keeps_attr.
Qed.

Lemma keeps_node_parts : forall e s,
  keeps I (tparse_decl k e s) /\ keeps I (tparse_comment k e s) /\ keeps I (tparse_unknown k e s) /\ keeps I (tparse_text k e s).
Proof.
  intros e s. unfold tparse_decl, tparse_comment, tparse_unknown, tparse_text, quiet.
  split; [kp; apply keeps_decl_loop|]. split; [kp|]. split; kp.
Qed.

Lemma keeps_elem_value : forall n,
  (forall e p, keeps I (tparse_elem k n e p)) /\ (forall e p, keeps I (tread_value k n e p)).
Proof.
  induction n as [|n [IHe IHv]]; [split; intros; apply keeps_fuel|]. split.
  - intros e p. cbn [tparse_elem]. destruct (SkipWhiteSpace e p) as [[|c t]|]; kp; try apply IHv; apply keeps_attrs.
  - intros e p. cbn [tread_value]. destruct p as [[|c t]|]; kp; try apply IHv; try apply IHe; apply (keeps_node_parts e (String c t)).
Qed.

Lemma keeps_doc_loop : forall n e p, keeps I (tdoc_loop k n e p).
Proof.
  induction n; intros e p; cbn [tdoc_loop]; [apply keeps_fuel|].
  destruct p as [[|c t]|]; cbv zeta; kp; try apply IHn. unfold tparse_node.
  destruct (identify (String c t)); try apply (keeps_node_parts e (String c t)). apply keeps_elem_value.
Qed.
End Keeps.

(** ** Stamp ends *)
Lemma no_cut_suffix : forall t s, suffix t s -> no_cut_ef s -> no_cut_ef t.
Proof.
  intros t s [x ->] H a c b E EF. apply (H (x +++ a) c b); [rewrite E, sapp_assoc; reflexivity | exact EF].
Qed.

Lemma stamp_loop_ends : forall k e now p row col, no_cut_ef p -> (String.length p < k)%nat ->
  exists r c p', stamp_loop k e now p row col = Some (r, c, p') /\ psuf p' p.
Proof.
  induction k; intros e now p row col H L; [lia|]. cbn [stamp_loop].
  destruct (now <? String.length p)%nat; [|exists row, col, (Some p); split; [reflexivity | apply suffix_refl]].
  destruct p as [|c t]; [exists row, col, (Some ""); split; [reflexivity | apply suffix_refl]|].
  cbn [String.length] in L.
  assert (ST : forall u row col, suffix u t ->
    exists r c' p', stamp_loop k e now u row col = Some (r, c', p') /\ psuf p' (String c t)).
  { intros u row' col' SU. destruct (IHk e now u row' col') as [r [c' [p' [E P]]]].
    - eapply no_cut_suffix; [|exact H]. apply suffix_cons. exact SU.
    - apply suffix_len in SU. lia.
    - exists r, c', p'. split; [exact E|]. destruct p' as [z|]; [|exact I]. cbn in *.
      eapply suffix_trans; [exact P|]. apply suffix_cons. exact SU. }
  destruct (byte c =? 13).
  { apply ST. destruct t as [|d u]; [apply suffix_refl|]. destruct (byte d =? 10); [apply suffix_tail | apply suffix_refl]. }
  destruct (byte c =? 10).
  { apply ST. destruct t as [|d u]; [apply suffix_refl|]. destruct (byte d =? 13); [apply suffix_tail | apply suffix_refl]. }
  destruct (byte c =? 9); [apply ST, suffix_refl|].
  destruct (byte c =? 239) eqn:EF.
  - apply Z.eqb_eq in EF. destruct (is_utf8 e); [|apply ST, suffix_refl].
    assert (H2 := H "" c t eq_refl EF). destruct t as [|d [|f u]]; cbn in H2; [lia|lia|].
    apply ST. apply suffix_cons, suffix_tail.
  - cbv zeta. set (step := if is_utf8 e then utf8_len c else 1).
    assert (1 <= step).
    { unfold step, utf8_len. destruct (is_utf8 e); [|lia].
      destruct (byte c <? 194); [lia|]. destruct (byte c <? 224); [lia|]. destruct (byte c <? 240); [lia|].
      destruct (byte c <? 245); lia. }
    destruct (Z.of_nat (String.length (String c t)) <? step).
    + exists row, (col + 1), None. split; [reflexivity | exact I].
    + apply ST. destruct (Z.to_nat step) as [|m] eqn:M; [lia|]. cbn [drop]. apply drop_suffix.
Qed.

Definition stamp_in (s : string) (st : pst) : Prop := psuf (stamp st) s.

Lemma Stamp_keeps : forall s k, no_cut_ef s -> (String.length s < k)%nat ->
  forall e now, keeps (stamp_in s) (Stamp k e now).
Proof.
  intros s k H L e now st P. unfold Stamp. unfold stamp_in, psuf in P. destruct (stamp st) as [p|] eqn:E.
  - destruct (stamp_loop_ends k e (String.length now) p (c_row st) (c_col st)) as [r [c [p' [-> Q]]]].
    + eapply no_cut_suffix; eauto.
    + apply suffix_len in P. lia.
    + unfold stamp_in. cbn [stamp]. destruct p' as [z|]; [|exact I]. cbn in *. eapply suffix_trans; eauto.
  - unfold stamp_in. rewrite E. exact I.
Qed.

Lemma tLoadFile_ends : forall s k, no_cut_ef s -> (String.length s < k)%nat -> tLoadFile k s <> TWait.
Proof.
  intros s k H L. unfold tLoadFile. destruct (String.eqb s ""); [discriminate|].
  assert (HS := Stamp_keeps s k H L).
  assert (HI : forall st x r c, stamp_in s st -> stamp_in s (mkP (c_row st) (c_col st) (stamp st) (Some (x, r, c)))) by (intros; assumption).
  unfold tparse_doc. destruct (SkipWhiteSpace (start_enc s) (Some s)) as [s1|]; [|discriminate].
  match goal with |- ?m (mkP 0 0 (Some s) None) <> _ => assert (K : keeps (stamp_in s) m) end.
  { apply keeps_bind; [apply keeps_doc_loop; assumption|]. intros [|x l]; [|apply keeps_ret].
    apply keeps_bind; [apply keeps_SetError; assumption | intros; apply keeps_ret]. }
  specialize (K (mkP 0 0 (Some s) None) (suffix_refl s)). 
  match goal with |- ?r <> _ => destruct r end; congruence || contradiction.
Qed.

(** tidy files have no byte EF at their end *)
Lemma tidy_no_cut : forall s, tidy_file s -> no_cut_ef s.
Proof.
  intros s [_ [_ [_ U]]] a c b E EF. destruct (U a c b E) as [_ [U2 _]].
  destruct U2 as [u [r [-> [L _]]]]; [lia|]. rewrite slen_app. lia.
Qed.
