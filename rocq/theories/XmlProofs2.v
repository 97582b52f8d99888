(** Reading any file ends; reading a tidy file is defined. *)
From Coq Require Import ZArith List String Ascii Bool Lia Arith.
From Verif Require Import Base XmlModel XmlSpec XmlProofs.
Import ListNotations.
Open Scope Z_scope.

Definition slen := String.length.

(** ** Suffixes *)

Definition suffix (t s : string) : Prop := exists a, s = a +++ t.

Lemma suffix_refl : forall s, suffix s s.
Proof. intros. exists ""%string. reflexivity. Qed.
Lemma suffix_trans : forall a b c, suffix a b -> suffix b c -> suffix a c.
Proof. intros a b c [x ->] [y ->]. exists (y +++ x). rewrite sapp_assoc. reflexivity. Qed.
Lemma suffix_cons : forall c t s, suffix t s -> suffix t (String c s).
Proof. intros c t s [a ->]. exists (String c a). reflexivity. Qed.
Lemma suffix_tail : forall c t, suffix t (String c t).
Proof. intros. apply suffix_cons. apply suffix_refl. Qed.
Lemma suffix_app : forall a t, suffix t (a +++ t).
Proof. intros. exists a. reflexivity. Qed.
Lemma suffix_len : forall t s, suffix t s -> (String.length t <= String.length s)%nat.
Proof. intros t s [a ->]. rewrite slen_app. lia. Qed.
Lemma suffix_uncons : forall c t s, suffix (String c t) s -> suffix t s.
Proof. intros c t s H. eapply suffix_trans; [apply suffix_tail | exact H]. Qed.

Lemma drop_suffix : forall n s, suffix (drop n s) s.
Proof.
  induction n; intros s; cbn; [apply suffix_refl|]. destruct s; [apply suffix_refl|].
  apply suffix_cons. apply IHn.
Qed.

Lemma tidy_suffix : forall t s, suffix t s -> tidy_file s -> tidy_file t.
Proof.
  intros t s [x ->] [H1 [H2 [H3 H4]]]. repeat split.
  - intros a w q b E. apply (H1 (x +++ a)). rewrite E, !sapp_assoc. reflexivity.
  - intros a b E. apply (H2 (x +++ a)). rewrite E, !sapp_assoc. reflexivity.
  - intros a b E. apply (H3 (x +++ a)). rewrite E, !sapp_assoc. reflexivity.
  - intros G. destruct (H4 (x +++ a) c b) as [G1 [G2 G3]]; [rewrite H, !sapp_assoc; reflexivity|]. auto.
  - intros G. destruct (H4 (x +++ a) c b) as [G1 [G2 G3]]; [rewrite H, !sapp_assoc; reflexivity|]. auto.
  - intros G. destruct (H4 (x +++ a) c b) as [G1 [G2 G3]]; [rewrite H, !sapp_assoc; reflexivity|]. auto.
Qed.

Definition psuf (q : ptr) (s : string) : Prop := match q with Some t => suffix t s | None => True end.
Definition pstrict (q : ptr) (s : string) : Prop :=
  match q with Some t => suffix t s /\ (String.length t < String.length s)%nat | None => True end.

Lemma pstrict_suf : forall q s, pstrict q s -> psuf q s.
Proof. intros [t|] s H; cbn in *; tauto. Qed.

(** outcome [r] is [POk a] with [Q a], or undefined when [U] allows it; never out of fuel *)
Definition okp {A} (U : Prop) (r : pr A) (Q : A -> Prop) : Prop :=
  match r with POk a => Q a | PUB => U | PFuel => False end.

Lemma okp_bind : forall A B U (r : pr A) (f : A -> pr B) Q R,
  okp U r Q -> (forall a, Q a -> okp U (f a) R) -> okp U (pbind r f) R.
Proof. intros A B U [a| |] f Q R H1 H2; cbn in *; auto. Qed.

Lemma okp_weak : forall A U (r : pr A) (Q R : A -> Prop), okp U r Q -> (forall a, Q a -> R a) -> okp U r R.
Proof. intros A U [a| |] Q R H1 H2; cbn in *; auto. Qed.

(** ** White space *)

Lemma skip_ws_split : forall s, exists w, s = w +++ skip_ws s /\ all_bytes (fun x => space_byte x \/ 128 <= x) w.
Proof.
  induction s.
  - exists ""%string. split; [reflexivity|]. intros c C. destruct (contains_byte_nil _ C).
  - cbn. destruct (IsWhiteSpace a) eqn:E.
    + destruct IHs as [w [E1 A]]. exists (String a w). split; [cbn; congruence|].
      intros c C. apply contains_byte_inv in C. destruct C as [->|C]; [|apply A; exact C].
      left. unfold IsWhiteSpace in E. rewrite orb_true_iff, andb_true_iff, !Z.leb_le, Z.eqb_eq in E.
      exact E.
    + exists ""%string. split; [reflexivity|]. intros c C. destruct (contains_byte_nil _ C).
Qed.

Lemma skip_utf8_split : forall n s, exists w, s = w +++ skip_ws_utf8 n s /\
  all_bytes (fun x => space_byte x \/ 128 <= x) w.
Proof.
  induction n; intros s.
  - exists ""%string. split; [reflexivity|]. intros c C. destruct (contains_byte_nil _ C).
  - cbn [skip_ws_utf8]. destruct (bom_rest s) eqn:B.
    + destruct (IHn s0) as [w [E A]].
      destruct s as [|a [|b [|c t]]]; try discriminate. cbn [bom_rest] in B.
      match type of B with (if ?k then _ else _) = _ => destruct k eqn:K; [|discriminate] end.
      injection B as ->. rewrite !andb_true_iff, !orb_true_iff, !andb_true_iff, !Z.eqb_eq in K.
      exists (String a (String b (String c w))). split; [cbn; congruence|].
      intros d C. apply contains_byte_inv in C. destruct C as [->|C]; [right; lia|].
      apply contains_byte_inv in C. destruct C as [->|C]; [right; lia|].
      apply contains_byte_inv in C. destruct C as [->|C]; [right; lia|]. apply A. exact C.
    + destruct s.
      * exists ""%string. split; [reflexivity|]. intros c C. destruct (contains_byte_nil _ C).
      * destruct (IsWhiteSpace a) eqn:E.
        -- destruct (IHn s) as [w [E1 A]]. exists (String a w). split; [cbn; congruence|].
           intros c C. apply contains_byte_inv in C. destruct C as [->|C]; [|apply A; exact C].
           left. unfold IsWhiteSpace in E. rewrite orb_true_iff, andb_true_iff, !Z.leb_le, Z.eqb_eq in E.
           exact E.
        -- exists ""%string. split; [reflexivity|]. intros c C. destruct (contains_byte_nil _ C).
Qed.

Lemma skip_split : forall e s t, SkipWhiteSpace e (Some s) = Some t ->
  exists w, s = w +++ t /\ all_bytes (fun x => space_byte x \/ 128 <= x) w.
Proof.
  intros e s t H. destruct s as [|c s]; [discriminate|]. cbn [SkipWhiteSpace] in H.
  destruct (is_utf8 e); injection H as <-;
    [apply (skip_utf8_split (String.length (String c s)) (String c s)) | apply (skip_ws_split (String c s))].
Qed.

Lemma skip_psuf : forall e q s, psuf q s -> psuf (SkipWhiteSpace e q) s.
Proof.
  intros e [t|] s H; [|exact I]. destruct (SkipWhiteSpace e (Some t)) eqn:E; [|exact I].
  destruct (skip_split _ _ _ E) as [w [W _]]. cbn in *. eapply suffix_trans; [|exact H].
  exists w. exact W.
Qed.

Lemma skip_pstrict : forall e q s, pstrict q s -> pstrict (SkipWhiteSpace e q) s.
Proof.
  intros e [t|] s H; [|exact I]. cbn in H. destruct H as [H1 H2].
  destruct (SkipWhiteSpace e (Some t)) eqn:E; [|exact I].
  destruct (skip_split _ _ _ E) as [w [W _]]. cbn. split.
  - eapply suffix_trans; [|exact H1]. exists w. exact W.
  - rewrite W, slen_app in H2. lia.
Qed.

Lemma skip_len : forall e q, (plen (SkipWhiteSpace e q) <= plen q)%nat.
Proof.
  intros e [t|]; [|cbn; lia]. destruct (SkipWhiteSpace e (Some t)) eqn:E; cbn; [|lia].
  destruct (skip_split _ _ _ E) as [w [W _]]. rewrite W, slen_app. lia.
Qed.

Lemma skip_progress : forall e c t u, SkipWhiteSpace e (Some (String c t)) = Some u ->
  (String.length u < String.length (String c t))%nat \/ (u = String c t /\ IsWhiteSpace c = false).
Proof.
  intros e c t u H. cbn [SkipWhiteSpace] in H.
  assert (EU : u = if is_utf8 e then skip_ws_utf8 (String.length (String c t)) (String c t) else skip_ws (String c t))
    by congruence.
  clear H. subst u. destruct (is_utf8 e).
  - cbn [String.length skip_ws_utf8].
    destruct (bom_rest (String c t)) eqn:B.
    + left. destruct t as [|b [|d t]]; try discriminate. cbn [bom_rest] in B.
      match type of B with (if ?k then _ else _) = _ => destruct k; [|discriminate] end.
      injection B as ->. destruct (skip_utf8_split (String.length (String b (String d s))) s) as [w [E _]].
      pose proof (f_equal String.length E) as L. rewrite slen_app in L. cbn [String.length] in *. lia.
    + destruct (IsWhiteSpace c) eqn:E; [|right; auto].
      left. destruct (skip_utf8_split (String.length t) t) as [w [E1 _]].
      pose proof (f_equal String.length E1) as L. rewrite slen_app in L. lia.
  - cbn [skip_ws]. destruct (IsWhiteSpace c) eqn:E; [|right; auto].
    left. destruct (skip_ws_split t) as [w [E1 _]].
    pose proof (f_equal String.length E1) as L. rewrite slen_app in L. cbn. lia.
Qed.

(** ** Names *)

Lemma read_name_loop_split : forall s n r, read_name_loop s = (n, r) -> s = n +++ r.
Proof.
  induction s; intros n r H; cbn in H.
  - injection H as <- <-. reflexivity.
  - destruct (name_char a).
    + destruct (read_name_loop s) as [n1 r1] eqn:E. injection H as <- <-. cbn. f_equal. apply IHs. reflexivity.
    + injection H as <- <-. reflexivity.
Qed.

Lemma alpha_name : forall c, IsAlpha c || ceqb c "_" = true -> name_char c = true.
Proof.
  intros c H. unfold name_char. rewrite !orb_true_iff in *. destruct H as [H|H]; [|tauto].
  left; left; left; left. unfold IsAlpha in H. unfold IsAlphaNum.
  destruct (byte c <? 127); [rewrite H|]; reflexivity.
Qed.

Lemma ReadName_strict : forall s n q, ReadName (Some s) = (n, q) -> pstrict q s.
Proof.
  intros [|c t] n q H; cbn [ReadName] in H; [injection H as _ <-; exact I|].
  destruct (IsAlpha c || ceqb c "_") eqn:A; [|injection H as _ <-; exact I].
  destruct (read_name_loop (String c t)) as [n1 r1] eqn:E. injection H as <- <-.
  pose proof E as E2. apply read_name_loop_split in E. cbn [read_name_loop] in E2.
  rewrite (alpha_name c A) in E2. destruct (read_name_loop t) as [n2 r2]. injection E2 as <- <-.
  cbn. split; [exists (String c n2); exact E|].
  apply (f_equal String.length) in E. rewrite slen_app in E. cbn in E. lia.
Qed.

(** ** Characters *)

(** bytes that may follow the first byte of a character in a tidy file *)
Definition inner_byte (b : Z) : Prop :=
  (48 <= b <= 57) \/ (65 <= b <= 90) \/ (97 <= b <= 122) \/ b = 35 \/ b = 59 \/ 128 <= b.

Definition piece (s : string) (q : ptr) : Prop :=
  exists c u r, s = String c u +++ r /\ q = Some r /\ all_bytes inner_byte u.

Lemma split_semi_some : forall s a b, split_semi s = Some (a, b) -> s = a +++ ";" +++ b /\ ~ contains_byte semi a.
Proof.
  induction s; intros x y H; cbn in H; [discriminate|].
  destruct (ceqb a semi) eqn:E.
  - injection H as <- <-. apply ceqb_true in E. subst. split; [reflexivity|]. apply contains_byte_nil.
  - destruct (split_semi s) as [[u v]|]; [|discriminate]. injection H as <- <-.
    destruct (IHs u v eq_refl) as [-> N]. split; [reflexivity|]. intros C.
    apply contains_byte_inv in C. destruct C as [C|C]; [|tauto]. apply ceqb_false in E. congruence.
Qed.

Lemma split_semi_app : forall d r, ~ contains_byte semi d -> split_semi (d +++ ";" +++ r) = Some (d, r).
Proof.
  induction d; intros r N; cbn; [reflexivity|].
  replace (ceqb a semi) with false.
  - change (d +++ String ";" r) with (d +++ ";" +++ r). rewrite IHd; [reflexivity|].
    intros C. apply N. apply contains_byte_cons. exact C.
  - symmetry. apply ceqb_false. intros ->. apply N. apply contains_byte_here.
Qed.

Lemma srev_app : forall s acc, srev s acc = srev s "" +++ acc.
Proof.
  induction s; intros acc; cbn; [reflexivity|]. rewrite IHs, (IHs (String a "")), sapp_assoc. reflexivity.
Qed.

Lemma srev_bytes : forall s acc (P : Z -> Prop), all_bytes P s -> all_bytes P acc -> all_bytes P (srev s acc).
Proof.
  induction s; intros acc P H1 H2; cbn; [exact H2|]. apply IHs.
  - intros c C. apply H1. apply contains_byte_cons. exact C.
  - intros c C. apply contains_byte_inv in C. destruct C as [->|C]; [apply H1; apply contains_byte_here | apply H2; exact C].
Qed.

Lemma hex_scan_some : forall r m u, all_bytes hex_byte r -> exists v, hex_scan r m u = Some v.
Proof.
  induction r; intros m u H; cbn; [eauto|].
  assert (A : hex_byte (byte a)) by (apply H; apply contains_byte_here).
  assert (T : all_bytes hex_byte r) by (intros c C; apply H; apply contains_byte_cons; exact C).
  destruct (ceqb a "x"); [eauto|]. unfold hexval, hex_byte in *.
  destruct (Z.leb_spec 48 (byte a)); destruct (Z.leb_spec (byte a) 57); cbn [andb]; try apply IHr; auto;
  destruct (Z.leb_spec 97 (byte a)); destruct (Z.leb_spec (byte a) 102); cbn [andb]; try apply IHr; auto;
  destruct (Z.leb_spec 65 (byte a)); destruct (Z.leb_spec (byte a) 70); cbn [andb]; try apply IHr; auto; lia.
Qed.

Lemma dec_scan_some : forall r m u, all_bytes (fun x => 48 <= x <= 57) r -> exists v, dec_scan r m u = Some v.
Proof.
  induction r; intros m u H; cbn; [eauto|].
  assert (A : 48 <= byte a <= 57) by (apply (H a); apply contains_byte_here).
  assert (T : all_bytes (fun x => 48 <= x <= 57) r) by (intros c C; apply (H c); apply contains_byte_cons; exact C).
  destruct (ceqb a "#"); [eauto|].
  replace (isdigit_b (byte a)) with true; [apply IHr; exact T|].
  symmetry. unfold isdigit_b. rewrite andb_true_iff, !Z.leb_le. exact A.
Qed.

Lemma named_entity_piece : forall s b q, named_entity s = (b, q) -> s <> ""%string -> piece s q.
Proof.
  intros s b q H N. unfold named_entity in H.
  destruct (strip "&amp;" s) eqn:E1.
  { apply strip_some in E1. injection H as <- <-. subst s. exists amp, "amp;"%string, s0. split; [reflexivity|]. split; [reflexivity|].
    intros c C. repeat (apply contains_byte_inv in C; destruct C as [->|C]; [unfold inner_byte; vm_compute; intuition discriminate|]).
    destruct (contains_byte_nil _ C). }
  destruct (strip "&lt;" s) eqn:E2.
  { apply strip_some in E2. injection H as <- <-. subst s. exists amp, "lt;"%string, s0. split; [reflexivity|]. split; [reflexivity|].
    intros c C. repeat (apply contains_byte_inv in C; destruct C as [->|C]; [unfold inner_byte; vm_compute; intuition discriminate|]).
    destruct (contains_byte_nil _ C). }
  destruct (strip "&gt;" s) eqn:E3.
  { apply strip_some in E3. injection H as <- <-. subst s. exists amp, "gt;"%string, s0. split; [reflexivity|]. split; [reflexivity|].
    intros c C. repeat (apply contains_byte_inv in C; destruct C as [->|C]; [unfold inner_byte; vm_compute; intuition discriminate|]).
    destruct (contains_byte_nil _ C). }
  destruct (strip "&quot;" s) eqn:E4.
  { apply strip_some in E4. injection H as <- <-. subst s. exists amp, "quot;"%string, s0. split; [reflexivity|]. split; [reflexivity|].
    intros c C. repeat (apply contains_byte_inv in C; destruct C as [->|C]; [unfold inner_byte; vm_compute; intuition discriminate|]).
    destruct (contains_byte_nil _ C). }
  destruct (strip "&apos;" s) eqn:E5.
  { apply strip_some in E5. injection H as <- <-. subst s. exists amp, "apos;"%string, s0. split; [reflexivity|]. split; [reflexivity|].
    intros c C. repeat (apply contains_byte_inv in C; destruct C as [->|C]; [unfold inner_byte; vm_compute; intuition discriminate|]).
    destruct (contains_byte_nil _ C). }
  injection H as <- <-. destruct s as [|c t]; [contradiction|]. exists c, ""%string, t.
  split; [reflexivity|]. split; [reflexivity|]. intros d C. destruct (contains_byte_nil _ C).
Qed.

Lemma piece_strict : forall s q, piece s q -> pstrict q s.
Proof.
  intros s q [c [u [r [-> [-> _]]]]]. cbn [pstrict]. split; [apply suffix_app|].
  rewrite slen_app. cbn. lia.
Qed.

Lemma GetEntity_strict : forall e s b q, GetEntity e s = (b, q) -> s <> ""%string -> pstrict q s.
Proof.
  intros e s b q H N. destruct s as [|a [|h [|c r]]]; [contradiction| | |].
  - apply piece_strict. eapply named_entity_piece; [exact H | exact N].
  - apply piece_strict. eapply named_entity_piece; [exact H | exact N].
  - cbn [GetEntity] in H. destruct (ceqb h "#") eqn:Eh.
    + destruct (ceqb c "x") eqn:Ec.
      * destruct r as [|d r]; [injection H as <- <-; exact I|].
        destruct (split_semi (String d r)) as [[ds rest]|] eqn:S; [|injection H as <- <-; exact I].
        destruct (hex_scan (srev ds "") 1 0); [|injection H as <- <-; exact I].
        injection H as <- <-. apply split_semi_some in S. destruct S as [S _]. cbn [pstrict].
        rewrite S. split.
        -- do 3 apply suffix_cons. eapply suffix_trans; [apply suffix_tail | apply suffix_app].
        -- cbn [String.length]. rewrite slen_app. cbn. lia.
      * destruct (split_semi (String c r)) as [[ds rest]|] eqn:S; [|injection H as <- <-; exact I].
        destruct (dec_scan (srev ds "") 1 0); [|injection H as <- <-; exact I].
        injection H as <- <-. apply split_semi_some in S. destruct S as [S _]. cbn [pstrict].
        rewrite S. split.
        -- do 2 apply suffix_cons. eapply suffix_trans; [apply suffix_tail | apply suffix_app].
        -- cbn [String.length]. rewrite slen_app. cbn. lia.
    + apply piece_strict. eapply named_entity_piece; [exact H | exact N].
Qed.

Lemma no_semi_in : forall d (P : Z -> Prop), all_bytes P d -> ~ P 59 -> ~ contains_byte semi d.
Proof. intros d P A N C. apply A in C. exact (N C). Qed.

Lemma all_bytes_app : forall (P : Z -> Prop) a b, all_bytes P a -> all_bytes P b -> all_bytes P (a +++ b).
Proof.
  induction a; intros b H1 H2; cbn; [exact H2|]. intros c C. apply contains_byte_inv in C.
  destruct C as [->|C]; [apply H1; apply contains_byte_here|].
  apply (IHa b); auto. intros d D. apply H1. apply contains_byte_cons. exact D.
Qed.

Lemma all_bytes_imp : forall (P Q : Z -> Prop) a, (forall x, P x -> Q x) -> all_bytes P a -> all_bytes Q a.
Proof. intros P Q a H A c C. apply H. apply A. exact C. Qed.

Lemma all_bytes_nil : forall P, all_bytes P "".
Proof. intros P c C. destruct (contains_byte_nil _ C). Qed.

Lemma all_bytes_cons : forall (P : Z -> Prop) c s, P (byte c) -> all_bytes P s -> all_bytes P (String c s).
Proof. intros P c s H A d D. apply contains_byte_inv in D. destruct D as [->|D]; auto. Qed.

Lemma GetEntity_piece : forall e s b q t, GetEntity e s = (b, q) -> s = String amp t ->
  tidy_file s -> piece s q.
Proof.
  intros e s b q t H E [_ [_ [R _]]].
  destruct t as [|h [|c r]].
  - subst s. eapply named_entity_piece; [exact H | discriminate].
  - subst s. eapply named_entity_piece; [exact H | discriminate].
  - subst s. cbn [GetEntity] in H. destruct (ceqb h "#") eqn:Eh.
    + apply ceqb_true in Eh. subst h.
      destruct (R ""%string (String c r) eq_refl) as [[d [z [Ez A]]]|[d [z [Ez A]]]].
      * assert (Ns : ~ contains_byte semi d) by (eapply no_semi_in; [exact A | cbv beta; lia]).
        assert (Ec : ceqb c "x" = false).
        { apply ceqb_false. intros ->. destruct d as [|d0 d].
          - cbn in Ez. discriminate.
          - cbn in Ez. injection Ez as <- _. specialize (A "x"%char (contains_byte_here _ _)).
            vm_compute in A. intuition congruence. }
        rewrite Ec, Ez, split_semi_app in H by exact Ns.
        destruct (dec_scan_some (srev d "") 1 0) as [v V].
        { apply srev_bytes; [exact A | apply all_bytes_nil]. }
        rewrite V in H. injection H as <- <-.
        exists amp, (String "#" (d +++ ";")), z. rewrite Ez. split.
        -- cbn. rewrite sapp_assoc. reflexivity.
        -- split; [reflexivity|]. apply all_bytes_cons; [unfold inner_byte; right; right; right; left; reflexivity|].
           apply all_bytes_app.
           ++ eapply all_bytes_imp; [|exact A]. intros x X. left. exact X.
           ++ apply all_bytes_cons; [unfold inner_byte; do 4 right; left; reflexivity | apply all_bytes_nil].
      * cbn in Ez. injection Ez as Ec Er. subst c. change (ceqb "x" "x") with true in H. cbv iota in H.
        assert (Ns : ~ contains_byte semi d) by (eapply no_semi_in; [exact A | unfold hex_byte; lia]).
        subst r.
        assert (Hr : exists k j, d +++ String ";" z = String k j) by (destruct d; cbn; eauto).
        destruct Hr as [k [j Hr]]. rewrite Hr in H. cbv iota in H. rewrite <- Hr in H.
        change (d +++ String ";" z) with (d +++ ";" +++ z) in H.
        rewrite split_semi_app in H by exact Ns.
        destruct (hex_scan_some (srev d "") 1 0) as [v V].
        { apply srev_bytes; [exact A | apply all_bytes_nil]. }
        rewrite V in H.
        injection H as <- <-.
        exists amp, (String "#" (String "x" (d +++ ";"))), z. split.
        -- cbn. rewrite sapp_assoc. reflexivity.
        -- split; [reflexivity|]. apply all_bytes_cons; [unfold inner_byte; right; right; right; left; reflexivity|].
           apply all_bytes_cons; [unfold inner_byte; right; right; left; vm_compute; intuition discriminate|].
           apply all_bytes_app.
           ++ eapply all_bytes_imp; [|exact A]. intros x X. unfold inner_byte, hex_byte in *. lia.
           ++ apply all_bytes_cons; [unfold inner_byte; do 4 right; left; reflexivity | apply all_bytes_nil].
    + eapply named_entity_piece; [exact H | discriminate].
Qed.

Lemma take_drop : forall n s, s = take n s +++ drop n s.
Proof. induction n; intros [|c s]; cbn; try reflexivity. f_equal. apply IHn. Qed.

Lemma drop_app : forall u r, drop (String.length u) (u +++ r) = r.
Proof. induction u; intros; cbn; [reflexivity | apply IHu]. Qed.

Lemma GetChar_ok : forall e s S, s <> ""%string -> suffix s S ->
  okp (~ tidy_file S) (GetChar e s) (fun '(_, q) => pstrict q s /\ (tidy_file S -> piece s q)).
Proof.
  intros e s S N SU. destruct s as [|c t]; [contradiction|]. unfold GetChar.
  destruct (is_utf8 e) eqn:U.
  2:{ cbn [Z.eqb Pos.eqb]. destruct (ceqb c amp) eqn:E.
      - destruct (GetEntity e (String c t)) as [b q] eqn:G. cbn [okp]. split.
        + eapply GetEntity_strict; eauto.
        + intros T. apply ceqb_true in E. subst c. eapply GetEntity_piece; eauto. eapply tidy_suffix; eauto.
      - cbn [okp pstrict]. split; [split; [apply suffix_tail | cbn; lia]|].
        intros _. exists c, ""%string, t. split; [reflexivity|]. split; [reflexivity | apply all_bytes_nil]. }
  destruct (Z.eqb_spec (utf8_len c) 1).
  - destruct (ceqb c amp) eqn:E.
    + destruct (GetEntity e (String c t)) as [b q] eqn:G. cbn [okp]. split.
      * eapply GetEntity_strict; eauto.
      * intros T. apply ceqb_true in E. subst c. eapply GetEntity_piece; eauto. eapply tidy_suffix; eauto.
    + cbn [okp pstrict]. split; [split; [apply suffix_tail | cbn; lia]|].
      intros _. exists c, ""%string, t. split; [reflexivity|]. split; [reflexivity | apply all_bytes_nil].
  - assert (TD : tidy_file S -> exists u r, t = u +++ r /\ Z.of_nat (String.length u) = utf8_len c - 1 /\
                                all_bytes (fun x => 128 <= x) u).
    { intros T. assert (T2 := tidy_suffix _ _ SU T). destruct T2 as [_ [_ [_ T2]]].
      destruct (T2 ""%string c t eq_refl) as [G1 [G2 G3]]. unfold utf8_len in *.
      destruct (Z.ltb_spec (byte c) 194); [lia|]. destruct (Z.ltb_spec (byte c) 224).
      - destruct G1 as [u [r [? [L ?]]]]; [lia|]. exists u, r. rewrite L. auto.
      - destruct (Z.ltb_spec (byte c) 240).
        + destruct G2 as [u [r [? [L ?]]]]; [lia|]. exists u, r. rewrite L. auto.
        + destruct (Z.ltb_spec (byte c) 245); [|lia].
          destruct G3 as [u [r [? [L ?]]]]; [lia|]. exists u, r. rewrite L. auto. }
    assert (UL : 1 <= utf8_len c).
    { unfold utf8_len. repeat match goal with |- context [if ?k then _ else _] => destruct k end; lia. }
    destruct (Z.ltb_spec (Z.of_nat (String.length (String c t))) (utf8_len c)).
    + cbn [okp]. intros T. destruct (TD T) as [u [r [-> [L _]]]]. cbn [String.length] in *. rewrite slen_app in *. lia.
    + cbn [okp pstrict]. split.
      * split; [apply drop_suffix|].
        pose proof (f_equal String.length (take_drop (Z.to_nat (utf8_len c)) (String c t))) as L.
        rewrite slen_app in L.
        assert (LT : (1 <= String.length (take (Z.to_nat (utf8_len c)) (String c t)))%nat).
        { replace (Z.to_nat (utf8_len c)) with (Datatypes.S (Z.to_nat (utf8_len c - 1))) by lia. cbn. lia. }
        lia.
      * intros T. destruct (TD T) as [u [r [-> [L A]]]]. exists c, u, r. split; [reflexivity|]. split.
        -- f_equal. replace (Z.to_nat (utf8_len c)) with (String.length (String c u)) by (cbn; lia).
           change (String c (u +++ r)) with (String c u +++ r). apply drop_app.
        -- eapply all_bytes_imp; [|exact A]. intros x X. cbv beta in X. unfold inner_byte. lia.
Qed.

(** ** ReadText *)

Definition tag_ok (tag : string) : Prop := exists c t, tag = String c t /\ ~ inner_byte (byte c).

Lemma skip_piece : forall u c t b r a, ~ contains_byte c u -> u +++ r = a +++ String c t +++ b ->
  exists a', r = a' +++ String c t +++ b.
Proof.
  induction u as [|d u IH]; intros c t b r a N E; cbn in E.
  - exists a. exact E.
  - destruct a as [|d2 a]; cbn in E.
    + injection E as -> _. exfalso. apply N. apply contains_byte_here.
    + injection E as _ E. eapply IH; [|exact E]. intros C. apply N. apply contains_byte_cons. exact C.
Qed.

Lemma read_keep_ok : forall n e tag p S, (plen p < n)%nat ->
  match p with Some s => suffix s S | None => ~ tidy_file S end ->
  okp (~ tidy_file S) (read_keep n e tag p) (fun '(_, st) =>
    match st with
    | AtTag r => match p with Some s => exists a, s = a +++ tag +++ r | None => False end
    | AtEnd => True
    | AtNull => ~ tidy_file S
    end /\
    (tidy_file S -> tag_ok tag -> match p with Some s => contains tag s | None => True end ->
       exists r, st = AtTag r)).
Proof.
  induction n; intros e tag p S L H; [lia|]. cbn [read_keep].
  destruct p as [[|c t]|].
  - cbn [okp]. split; [exact I|]. intros T [c [u [-> _]]] [a [b C]].
    destruct a; discriminate.
  - destruct (strip tag (String c t)) eqn:E.
    + cbn [okp]. split; [|eauto]. apply strip_some in E. exists ""%string. exact E.
    + eapply okp_bind; [apply GetChar_ok; [discriminate | exact H]|]. intros [b q] [P1 P2].
      assert (HQ : match q with Some s => suffix s S | None => ~ tidy_file S end).
      { destruct q as [s|]; [destruct P1 as [P1 _]; eapply suffix_trans; eauto|].
        intros T. destruct (P2 T) as [c0 [u [r [_ [Q _]]]]]. discriminate. }
      eapply okp_bind.
      * apply (IHn e tag q S).
        { destruct q as [s|]; cbn in *; [|lia]. destruct P1. cbn in *. lia. }
        exact HQ.
      * intros [u st] [Q1 Q2]. cbn [okp]. split.
        -- destruct st; auto. destruct q as [s|]; [|contradiction]. destruct Q1 as [a ->].
           destruct P1 as [[x P1] _]. exists (x +++ a). rewrite P1, sapp_assoc. reflexivity.
        -- intros T TG CT. apply Q2; auto. destruct q as [s|]; [|exact I].
           destruct (P2 T) as [c0 [w [r [E1 [E2 A]]]]]. injection E2 as <-.
           destruct TG as [k [j [-> NI]]]. destruct CT as [a [z CT]].
           destruct a as [|a0 a].
           ++ cbn in CT. rewrite CT in E. change (String k (j +++ z)) with (String k j +++ z) in E.
              rewrite strip_app in E. discriminate.
           ++ rewrite CT in E1. cbn in E1. injection E1 as _ E1. 
              destruct (skip_piece w k j z s a) as [a' E3].
              { intros C. apply A in C. contradiction. }
              { symmetry. exact E1. }
              exists a', z. exact E3.
  - cbn [okp]. split; [exact H|]. intros T. contradiction.
Qed.

Lemma read_trim_ok : forall n e tag b p S, (plen p < n)%nat ->
  match p with Some s => suffix s S | None => ~ tidy_file S end ->
  okp (~ tidy_file S) (read_trim n e tag b p) (fun '(_, st) =>
    match st with
    | AtTag r => match p with Some s => exists a, s = a +++ tag +++ r | None => False end
    | AtEnd => True
    | AtNull => ~ tidy_file S
    end).
Proof.
  induction n; intros e tag b p S L H; [lia|]. cbn [read_trim].
  destruct p as [[|c t]|].
  - exact I.
  - destruct (strip tag (String c t)) eqn:E.
    + cbn [okp]. apply strip_some in E. exists ""%string. exact E.
    + destruct (IsWhiteSpace c).
      * eapply okp_weak.
        { apply (IHn e tag true (Some t) S); [cbn in *; lia | eapply suffix_uncons; exact H]. }
        intros [v st] Q. destruct st; auto. destruct Q as [a ->]. exists (String c a). reflexivity.
      * eapply okp_bind; [apply GetChar_ok; [discriminate | exact H]|]. intros [v q] [P1 P2].
        assert (HQ : match q with Some s => suffix s S | None => ~ tidy_file S end).
        { destruct q as [s|]; [destruct P1 as [P1 _]; eapply suffix_trans; eauto|].
          intros T. destruct (P2 T) as [c0 [u [r [_ [Q _]]]]]. discriminate. }
        eapply okp_bind.
        -- apply (IHn e tag false q S).
           { destruct q as [s|]; cbn in *; [|lia]. destruct P1. cbn in *. lia. }
           exact HQ.
        -- intros [u st] Q1. cbn [okp].
           destruct st; auto. destruct q as [s|]; [|contradiction]. destruct Q1 as [a ->].
           destruct P1 as [[x P1] _]. exists (x +++ a). rewrite P1, sapp_assoc. reflexivity.
  - exact H.
Qed.

Lemma read_bare_split : forall s v r, read_bare s = (v, r) -> s = v +++ r.
Proof.
  induction s; intros v r H; cbn in H.
  - injection H as <- <-. reflexivity.
  - destruct (IsWhiteSpace a || ceqb a "/" || ceqb a gtc).
    + injection H as <- <-. reflexivity.
    + destruct (read_bare s) as [v1 r1]. injection H as <- <-. cbn. f_equal. apply IHs. reflexivity.
Qed.

Lemma quote_tag : forall q, q = quot \/ q = apos -> tag_ok (String q "").
Proof.
  intros q Q. exists q, ""%string. split; [reflexivity|]. unfold inner_byte.
  destruct Q as [->| ->]; vm_compute; intuition discriminate.
Qed.

Lemma parse_attr_ok : forall e s S, suffix s S ->
  okp (~ tidy_file S) (parse_attr e (Some s)) (fun '(_, _, q, _) => pstrict q s).
Proof.
  intros e s S SU. unfold parse_attr.
  destruct (SkipWhiteSpace e (Some s)) as [[|c t]|] eqn:E0; try exact I.
  assert (S0 : suffix (String c t) s).
  { destruct (skip_split _ _ _ E0) as [w [-> _]]. apply suffix_app. }
  destruct (ReadName (Some (String c t))) as [name p1] eqn:E1.
  assert (P1 := ReadName_strict _ _ _ E1).
  destruct p1 as [[|c1 s1]|]; try exact I. destruct P1 as [P1 P1l].
  assert (PS : suffix (String c1 s1) s) by (eapply suffix_trans; eauto).
  destruct (SkipWhiteSpace e (Some (String c1 s1))) as [[|c2 s2]|] eqn:E2; try exact I.
  assert (S2 : suffix (String c2 s2) (String c1 s1)).
  { destruct (skip_split _ _ _ E2) as [w [-> _]]. apply suffix_app. }
  destruct (ceqb c2 "=") eqn:C2; try exact I. apply ceqb_true in C2. subst c2.
  assert (S0l := suffix_len _ _ S0). assert (S2l := suffix_len _ _ S2).
  destruct (SkipWhiteSpace e (Some s2)) as [[|d s3]|] eqn:E3; try exact I.
  destruct (skip_split _ _ _ E3) as [w [E4 A4]].
  assert (S3 : suffix (String d s3) s).
  { eapply suffix_trans; [|eapply suffix_trans; [exact S2 | exact PS]]. rewrite E4. apply suffix_cons. apply suffix_app. }
  assert (L3 : (String.length (String d s3) < String.length s)%nat).
  { apply (f_equal String.length) in E4. rewrite slen_app in E4. cbn [String.length] in *. lia. }
  destruct (ceqb d apos || ceqb d quot) eqn:Dq.
  - assert (Q : d = quot \/ d = apos) by (apply orb_true_iff in Dq; rewrite !ceqb_true in Dq; tauto).
    unfold read_quoted, ReadText. 
    match goal with |- okp _ (pbind (pbind ?x ?f) ?g) _ =>
      assert (RK : okp (~ tidy_file S) (pbind x f) (fun '(v, r) => pstrict r s)) end.
    { eapply okp_bind.
      - apply (read_keep_ok _ e (String d "") (Some s3) S); [cbn; lia|].
        eapply suffix_uncons. eapply suffix_trans; [exact S3 | exact SU].
      - intros [v st] [Q1 Q2]. destruct st.
        + cbn [okp pstrict]. destruct Q1 as [a ->]. split.
          * eapply suffix_trans; [|exact S3]. apply suffix_cons. eapply suffix_trans; [|apply suffix_app].
            apply suffix_app.
          * cbn [String.length] in L3. rewrite !slen_app in L3. cbn in L3. lia.
        + cbn [okp]. intros T. destruct (Q2 T) as [r R]; [apply quote_tag; exact Q| |discriminate].
          destruct T as [T _].
          assert (SE : suffix (String "=" s2) S).
          { eapply suffix_trans; [exact S2|]. eapply suffix_trans; [exact PS | exact SU]. }
          destruct SE as [a SE].
          destruct (T a w d s3) as [x [y XY]]; [rewrite SE, E4; reflexivity | exact A4 | exact Q|].
          exists x, y. exact XY.
        + exact Q1. }
    eapply okp_bind; [exact RK|]. intros [v r] R. exact R.
  - destruct (read_bare (String d s3)) as [v r] eqn:B. apply read_bare_split in B. cbn [okp pstrict]. split.
    + eapply suffix_trans; [|exact S3]. exists v. exact B.
    + rewrite B in L3. rewrite slen_app in L3. lia.
Qed.

Lemma parse_attrs_ok : forall n e acc p s S, psuf p s -> suffix s S -> (plen p < n)%nat ->
  okp (~ tidy_file S) (parse_attrs n e acc p) (fun '(_, en) =>
    match en with
    | AEmpty r | AOpen r => suffix r s /\ (String.length r < String.length s)%nat
    | AFail _ => True
    end).
Proof.
  induction n; intros e acc p s S P SU L; [lia|]. cbn [parse_attrs].
  assert (PS := skip_psuf e p s P). assert (PL := skip_len e p).
  destruct (SkipWhiteSpace e p) as [[|c t]|] eqn:E0; try exact I.
  cbn [psuf plen] in *.
  destruct (ceqb c "/").
  - destruct t as [|d r]; [exact I|]. destruct (ceqb d gtc); [|exact I]. cbn [okp]. split.
    + do 2 apply suffix_uncons in PS. exact PS.
    + apply suffix_len in PS. cbn [String.length] in *. lia.
  - destruct (ceqb c gtc).
    + cbn [okp]. split; [eapply suffix_uncons; exact PS|]. apply suffix_len in PS. cbn [String.length] in *. lia.
    + eapply okp_bind.
      * apply (parse_attr_ok e (String c t) S). eapply suffix_trans; eauto.
      * intros [[[name v] q] err] Q. destruct q as [[|d r]|]; try exact I.
        destruct (find_attr (c_str name) acc); [exact I|].
        destruct Q as [Q1 Q2]. eapply IHn; auto.
        -- cbn. eapply suffix_trans; eauto.
        -- cbn [plen]. lia.
Qed.

Lemma skip_word_suffix : forall s, suffix (skip_word s) s.
Proof.
  induction s; cbn; [apply suffix_refl|]. destruct (ceqb a gtc || IsWhiteSpace a); [apply suffix_refl|].
  apply suffix_cons. exact IHs.
Qed.

Lemma decl_loop_ok : forall n e v c a p s S, psuf p s -> suffix s S -> (plen p < n)%nat ->
  okp (~ tidy_file S) (decl_loop n e v c a p) (fun '(_, q, _) => psuf q s).
Proof.
  induction n; intros e v c a p s S P SU L; [lia|]. cbn [decl_loop].
  destruct p as [[|d t]|]; try exact I. cbn [psuf plen] in *.
  destruct (ceqb d gtc) eqn:Dg.
  - cbn [okp psuf]. eapply suffix_uncons; exact P.
  - destruct (SkipWhiteSpace e (Some (String d t))) as [s1|] eqn:E; [|exact I].
    destruct (skip_split _ _ _ E) as [w [Ew _]].
    assert (S1 : suffix s1 s) by (eapply suffix_trans; [|exact P]; exists w; exact Ew).
    assert (L1 : (String.length s1 <= String.length (String d t))%nat) by (rewrite Ew, slen_app; lia).
    assert (AT : forall (k : string -> ptr -> pr (xnode * ptr * bool)),
       (forall x q, psuf q s -> (plen q < n)%nat -> okp (~ tidy_file S) (k x q) (fun '(_, q, _) => psuf q s)) ->
       okp (~ tidy_file S) (pbind (parse_attr e (Some s1)) (fun '(_, w, q, _) => k w q)) (fun '(_, q, _) => psuf q s)).
    { intros k K. eapply okp_bind; [apply (parse_attr_ok e s1 S); eapply suffix_trans; eauto|].
      intros [[[nm w2] q] er] Q. apply K.
      - destruct q as [z|]; [|exact I]. destruct Q. cbn. eapply suffix_trans; eauto.
      - destruct q as [z|]; cbn in *; [|lia]. destruct Q. lia. }
    destruct (StringEqualNoCase s1 "version").
    { apply (AT (fun w q => decl_loop n e (c_str w) c a q)). intros x q Q1 Q2. eapply IHn; eauto. }
    destruct (StringEqualNoCase s1 "encoding").
    { apply (AT (fun w q => decl_loop n e v (c_str w) a q)). intros x q Q1 Q2. eapply IHn; eauto. }
    destruct (StringEqualNoCase s1 "standalone").
    { apply (AT (fun w q => decl_loop n e v c (c_str w) q)). intros x q Q1 Q2. eapply IHn; eauto. }
    eapply IHn; eauto.
    + cbn. eapply suffix_trans; [apply skip_word_suffix | exact S1].
    + cbn [plen]. assert (SW := suffix_len _ _ (skip_word_suffix s1)).
      destruct (skip_progress _ _ _ _ E) as [H|[H1 H2]]; [cbn in *; lia|].
      rewrite H1. cbn [skip_word]. rewrite Dg, H2. cbn [orb].
      assert (SW2 := suffix_len _ _ (skip_word_suffix t)). cbn in L. lia.
Qed.

Lemma parse_decl_ok : forall e s S, suffix s S -> StringEqualNoCase s "<?xml" = true ->
  okp (~ tidy_file S) (parse_decl e s) (fun '(_, q, _) => pstrict q s).
Proof.
  intros e s S SU H. unfold parse_decl. destruct s as [|c t]; [discriminate|].
  eapply okp_weak.
  - apply (decl_loop_ok _ e "" "" "" (Some (drop 5 (String c t))) (drop 5 (String c t)) S).
    + cbn [psuf]. apply suffix_refl.
    + eapply suffix_trans; [apply drop_suffix | exact SU].
    + cbn [plen]. assert (D := suffix_len _ _ (drop_suffix 5 (String c t))). lia.
  - intros [[x q] er] Q. destruct q as [z|]; [|exact I]. cbn [psuf pstrict] in *.
    assert (D := drop_suffix 4 t). change (drop 4 t) with (drop 5 (String c t)) in D. split.
    + eapply suffix_trans; [exact Q | apply suffix_cons; exact D].
    + apply suffix_len in Q. apply suffix_len in D. cbn. lia.
Qed.

Lemma dash_tag : tag_ok "-->".
Proof.
  exists "-"%char, "->"%string. split; [reflexivity|]. unfold inner_byte. vm_compute. intuition discriminate.
Qed.

Lemma parse_comment_ok : forall e s S, suffix s S -> StringEqual s "<!--" = true ->
  okp (~ tidy_file S) (parse_comment e s) (fun '(_, q, _) => pstrict q s).
Proof.
  intros e s S SU H. unfold StringEqual in H. destruct (strip "<!--" s) as [t|] eqn:E; [|discriminate].
  apply strip_some in E. unfold parse_comment, ReadText. rewrite E. cbn [String.append drop].
  eapply okp_bind.
  - apply (read_keep_ok _ e "-->" (Some t) S); [cbn; lia|].
    eapply suffix_trans; [|exact SU]. rewrite E. apply suffix_app.
  - intros [v st] [Q1 Q2]. destruct st.
    + cbn [okp pstrict]. destruct Q1 as [a ->]. split.
      * do 4 apply suffix_cons. eapply suffix_trans; [|apply suffix_app]. apply (suffix_app "-->").
      * cbn [String.length]. rewrite slen_app. cbn. lia.
    + cbn [okp]. intros T. destruct (Q2 T dash_tag) as [r R]; [|discriminate].
      destruct T as [_ [T _]]. destruct SU as [x SU]. apply (T x). rewrite SU, E. reflexivity.
    + exact Q1.
Qed.

Lemma read_unknown_suffix : forall s v r, read_unknown s = (v, r) -> suffix r s.
Proof.
  induction s; intros v r H; cbn in H.
  - injection H as <- <-. apply suffix_refl.
  - destruct (ceqb a gtc).
    + injection H as <- <-. apply suffix_tail.
    + destruct (read_unknown s) as [v1 r1]. injection H as <- <-. apply suffix_cons. eapply IHs. reflexivity.
Qed.

Lemma parse_unknown_ok : forall s U, s <> ""%string ->
  okp U (parse_unknown s) (fun '(_, q, _) => pstrict q s).
Proof.
  intros [|c t] U N; [contradiction|]. unfold parse_unknown. cbn [drop].
  destruct (read_unknown t) as [v r] eqn:E. apply read_unknown_suffix in E. cbn [okp pstrict]. split.
  - apply suffix_cons. exact E.
  - apply suffix_len in E. cbn. lia.
Qed.

Lemma parse_text_ok : forall e c t S, suffix (String c t) S -> c <> ltc ->
  okp (~ tidy_file S) (parse_text e (String c t)) (fun '(_, q) => pstrict q (String c t)).
Proof.
  intros e c t S SU N. unfold parse_text, ReadText.
  assert (SK : exists s1, SkipWhiteSpace e (Some (String c t)) = Some s1) by (cbn; eauto).
  destruct SK as [s1 SK]. rewrite SK. destruct (skip_split _ _ _ SK) as [w [W _]].
  assert (S1 : suffix s1 (String c t)) by (exists w; exact W).
  eapply okp_bind.
  - apply (read_trim_ok _ e "<" false (Some s1) S); [cbn; lia | eapply suffix_trans; eauto].
  - intros [v st] Q. destruct st.
    + cbn [okp pstrict]. destruct Q as [a ->]. cbn [String.append] in *. split.
      * eapply suffix_trans; [|exact S1]. apply (suffix_app a).
      * rewrite W. destruct w as [|w0 w].
        -- destruct a as [|a0 a]; [cbn in W; injection W as W _; contradiction|].
           cbn. rewrite slen_app. cbn. lia.
        -- cbn. rewrite !slen_app. cbn. lia.
    + cbn [okp pstrict]. split; [exists (String c t); rewrite sapp_nil_r; reflexivity | cbn; lia].
    + exact Q.
Qed.

Lemma identify_decl : forall s, identify s = KDecl -> StringEqualNoCase s "<?xml" = true.
Proof.
  intros s H. unfold identify in H. destruct (StringEqualNoCase s "<?xml"); [reflexivity|].
  destruct (StringEqual s "<!--"); [discriminate|]. destruct (StringEqual s "<!"); [discriminate|].
  destruct s as [|a [|b s]]; try discriminate. destruct (IsAlpha b || ceqb b "_"); discriminate.
Qed.

Lemma identify_comment : forall s, identify s = KComment -> StringEqual s "<!--" = true.
Proof.
  intros s H. unfold identify in H. destruct (StringEqualNoCase s "<?xml"); [discriminate|].
  destruct (StringEqual s "<!--"); [reflexivity|]. destruct (StringEqual s "<!"); [discriminate|].
  destruct s as [|a [|b s]]; try discriminate. destruct (IsAlpha b || ceqb b "_"); discriminate.
Qed.

Lemma elem_value_ok : forall n,
  (forall e s S, suffix s S -> (2 * String.length s + 1 <= n)%nat ->
     okp (~ tidy_file S) (parse_elem n e (Some s)) (fun '(_, q, _) => pstrict q s)) /\
  (forall e p s S, psuf p s -> suffix s S -> (2 * plen p + 2 <= n)%nat ->
     okp (~ tidy_file S) (read_value n e p) (fun '(_, q, _) => psuf q s)).
Proof.
  induction n as [|n [IHe IHv]]; [split; intros; lia|]. split.
  - intros e s S SU L. cbn [parse_elem].
    destruct (SkipWhiteSpace e (Some s)) as [[|c t]|] eqn:E0; try exact I.
    destruct (skip_split _ _ _ E0) as [w [Ew _]].
    assert (S0 : suffix (String c t) s) by (exists w; exact Ew).
    destruct (negb (ceqb c ltc)); [exact I|].
    destruct (SkipWhiteSpace e (Some t)) as [s0|] eqn:E1; [|exact I].
    destruct (skip_split _ _ _ E1) as [w1 [Ew1 _]].
    destruct (ReadName (Some s0)) as [name p1] eqn:RN.
    assert (P1 := ReadName_strict _ _ _ RN).
    destruct p1 as [[|c1 s1]|]; try exact I. destruct P1 as [P1 P1l].
    assert (S1 : suffix (String c1 s1) s).
    { eapply suffix_trans; [exact P1|]. eapply suffix_trans; [|exact S0]. rewrite Ew1.
      apply suffix_cons. apply suffix_app. }
    assert (L1 : (String.length (String c1 s1) < String.length s)%nat).
    { apply suffix_len in S0. cbn [String.length] in *. rewrite Ew1, slen_app in S0. lia. }
    eapply okp_bind.
    + apply (parse_attrs_ok _ e [] (Some (String c1 s1)) (String c1 s1) S).
      * apply suffix_refl.
      * eapply suffix_trans; eauto.
      * cbn. lia.
    + intros [attrs en] Q. destruct en as [r|r|er].
      * destruct Q as [Q1 Q2]. cbn [okp pstrict]. split; [eapply suffix_trans; eauto | lia].
      * destruct Q as [Q1 Q2].
        assert (SR : suffix r s) by (eapply suffix_trans; eauto).
        eapply okp_bind.
        -- apply (IHv e (SkipWhiteSpace e (Some r)) r S).
           ++ apply skip_psuf. apply suffix_refl.
           ++ eapply suffix_trans; eauto.
           ++ assert (SL := skip_len e (Some r)). cbn [plen] in SL. lia.
        -- intros [[ch q] er] Q. destruct q as [[|c2 s2]|]; try exact I.
           destruct (strip ("</" +++ name +++ ">") (String c2 s2)) as [r2|] eqn:ST; [|exact I].
           apply strip_some in ST. cbn [okp pstrict psuf] in *. rewrite ST in Q. split.
           ++ eapply suffix_trans; [|exact SR]. eapply suffix_trans; [|exact Q]. apply suffix_app.
           ++ apply suffix_len in Q. rewrite slen_app in Q. lia.
      * exact I.
  - intros e p s S P SU L. cbn [read_value].
    destruct p as [[|c t]|]; try exact I.
    + cbn [okp psuf]. exists s. rewrite sapp_nil_r. reflexivity.
    + cbn [psuf plen] in *.
      assert (SS : suffix (String c t) S) by (eapply suffix_trans; eauto).
      assert (REC : forall q, pstrict q (String c t) ->
        okp (~ tidy_file S) (read_value n e (SkipWhiteSpace e q)) (fun '(_, q, _) => psuf q s)).
      { intros q Q. eapply okp_weak.
        - apply (IHv e (SkipWhiteSpace e q) s S); auto.
          + apply skip_psuf. destruct q as [z|]; [|exact I]. destruct Q. cbn. eapply suffix_trans; eauto.
          + assert (SL := skip_len e q). destruct q as [z|]; cbn [plen pstrict] in *; [|cbn in *; lia].
            destruct Q. lia.
        - intros [[ch q2] er] Q2. exact Q2. }
      destruct (ceqb c ltc) eqn:CL; cbn [negb].
      * destruct (StringEqual (String c t) "</"); [cbn; exact P|].
        eapply okp_bind with (Q := fun '(_, q, _) => pstrict q (String c t)).
        -- destruct (identify (String c t)) eqn:ID.
           ++ apply parse_decl_ok; [exact SS | apply identify_decl; exact ID].
           ++ apply parse_comment_ok; [exact SS | apply identify_comment; exact ID].
           ++ apply parse_unknown_ok. discriminate.
           ++ apply IHe; [exact SS | lia].
        -- intros [[x q] er] Q. eapply okp_bind; [apply REC; exact Q|].
           intros [[ch q2] er2] Q2. exact Q2.
      * eapply okp_bind.
        -- apply (parse_text_ok e c t S SS). apply ceqb_false. exact CL.
        -- intros [v q] Q. eapply okp_bind; [apply REC; exact Q|].
           intros [[ch q2] er2] Q2. exact Q2.
Qed.

Lemma parse_node_ok : forall e s S, s <> ""%string -> suffix s S ->
  okp (~ tidy_file S) (parse_node e s) (fun '(_, q, _) => pstrict q s).
Proof.
  intros e s S N SU. unfold parse_node. destruct (identify s) eqn:ID.
  - apply parse_decl_ok; [exact SU | apply identify_decl; exact ID].
  - apply parse_comment_ok; [exact SU | apply identify_comment; exact ID].
  - apply parse_unknown_ok. exact N.
  - apply elem_value_ok; [exact SU | unfold elem_fuel; lia].
Qed.

Lemma doc_loop_ok : forall n e p S, psuf p S -> (plen p < n)%nat ->
  okp (~ tidy_file S) (doc_loop n e p) (fun _ => True).
Proof.
  induction n; intros e p S P L; [lia|]. cbn [doc_loop].
  destruct p as [[|c t]|]; try exact I. cbn [psuf plen] in *.
  destruct (negb (ceqb c ltc)); [exact I|].
  eapply okp_bind; [apply (parse_node_ok e (String c t) S); [discriminate | exact P]|].
  intros [[x q] er] Q. cbn zeta. eapply okp_bind.
  - apply (IHn (next_enc e x) (SkipWhiteSpace (next_enc e x) q) S).
    + apply skip_psuf. destruct q as [z|]; [|exact I]. destruct Q. cbn. eapply suffix_trans; eauto.
    + assert (SL := skip_len (next_enc e x) q). destruct q as [z|]; cbn [plen pstrict String.length] in *; [|lia].
      destruct Q. lia.
  - intros [l er2] _. exact I.
Qed.

Lemma load_ok : forall s, okp (~ tidy_file s) (LoadFile s) (fun _ => True).
Proof.
  intros s. unfold LoadFile. destruct (String.eqb s ""); [exact I|].
  eapply okp_bind with (Q := fun _ => True); [|intros [l er] _; exact I].
  unfold parse_doc. destruct (SkipWhiteSpace (start_enc s) (Some s)) as [s1|] eqn:E; [|exact I].
  destruct (skip_split _ _ _ E) as [w [W _]].
  eapply okp_bind; [|intros [l er] _; exact I].
  apply doc_loop_ok; [cbn; exists w; exact W | cbn; lia].
Qed.

Lemma load_terminates : forall s, LoadFile s <> PFuel.
Proof. intros s H. pose proof (load_ok s) as Q. rewrite H in Q. exact Q. Qed.

Lemma load_tidy : forall s, tidy_file s -> exists doc good, LoadFile s = POk (doc, good).
Proof.
  intros s T. pose proof (load_ok s) as Q. destruct (LoadFile s) as [[doc good]| |]; [eauto | contradiction | contradiction].
Qed.
