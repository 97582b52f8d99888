(** Proofs about the texts sprintf writes: how long they are and what one reads in them. *)
From Coq Require Import ZArith List String Ascii Bool Reals Lia Lra.
From Flocq Require Import Core.
From Verif Require Import Base RBase XmlModel XmlSpec XmlProofs NumModel NumSpec NumProofs UtilModel UtilSpec.
Import ListNotations.
Local Open Scope string_scope.
Local Open Scope R_scope.

(** ** Lengths *)
Lemma spaces_len : forall n, String.length (spaces n) = n.
Proof. induction n; cbn; congruence. Qed.
Lemma padded_len : forall w s, String.length (padded w s) = Nat.max w (String.length s).
Proof. intros. unfold padded. rewrite slen_app, spaces_len. lia. Qed.

Lemma ndigits_upper : forall n z k, (0 <= z < 10 ^ Z.of_nat (S k))%Z -> (ndigits n z <= S k)%nat.
Proof.
  induction n; intros z k H; [cbn; lia|].
  cbn [ndigits]. destruct (Z.ltb_spec z 10); [lia|].
  destruct k as [|k]; [change (10 ^ Z.of_nat 1)%Z with 10%Z in H; lia|].
  assert (ndigits n (z / 10) <= S k)%nat; [|lia]. apply IHn. split; [apply Z.div_pos; lia|].
  apply Z.div_lt_upper_bound; [lia|]. replace (Z.of_nat (S (S k))) with (Z.succ (Z.of_nat (S k))) in H by lia.
  rewrite Z.pow_succ_r in H by lia. lia.
Qed.
Lemma print_uint_len_le : forall z k, (0 <= z < 10 ^ Z.of_nat (S k))%Z -> (String.length (print_uint z) <= S k)%nat.
Proof. intros. unfold print_uint. rewrite dec_length. now apply ndigits_upper. Qed.
Lemma print_uint_len_ge : forall z k, (10 ^ Z.of_nat k <= z)%Z -> (S k <= String.length (print_uint z))%nat.
Proof.
  intros z k H. unfold print_uint. rewrite dec_length. set (n := Z.to_nat (Z.log2 z)).
  assert (P : (0 < 10 ^ Z.of_nat k)%Z) by (apply Z.pow_pos_nonneg; lia).
  assert (B : (z < 10 ^ Z.of_nat (ndigits n z))%Z).
  { apply ndigits_bound; [lia|]. unfold n. rewrite Z2Nat.id by apply Z.log2_nonneg. lia. }
  assert (L : (10 ^ Z.of_nat k < 10 ^ Z.of_nat (ndigits n z))%Z) by lia.
  apply Z.pow_lt_mono_r_iff in L; lia.
Qed.
Lemma print_int_len : forall z, int_ok z -> (1 <= String.length (print_int z) <= 11)%nat.
Proof.
  intros z [H1 H2]. unfold print_int.
  assert (U : forall u, (0 <= u <= 2147483648)%Z -> (1 <= String.length (print_uint u) <= 10)%nat).
  { intros u Hu. split; [|apply print_uint_len_le; cbn; lia].
    destruct (print_uint_head u) as [c [t [E _]]]; [lia|]. rewrite E. cbn. lia. }
  destruct (Z.ltb_spec z 0).
  - cbn [String.length]. specialize (U (- z)%Z). lia.
  - specialize (U z). lia.
Qed.

Lemma nearest_le : forall x y : R, (x <= y)%R -> (ZnearestE x <= ZnearestE y)%Z.
Proof. intros. now apply (@Zrnd_le ZnearestE (valid_rnd_N _)). Qed.
Lemma ZnearestE_IZR : forall z, ZnearestE (IZR z) = z.
Proof. intros. apply (@Zrnd_IZR ZnearestE (valid_rnd_N _)). Qed.

(** the integer the digits of a number stand for *)
Definition units (p : nat) (x : R) : Z := ZnearestE (Rabs x * IZR (10 ^ Z.of_nat p)).
Lemma units_nonneg : forall p x, (0 <= units p x)%Z.
Proof.
  intros. unfold units. rewrite <- (ZnearestE_IZR 0). apply nearest_le.
  apply Rmult_le_pos; [apply Rabs_pos|]. apply IZR_le, Z.pow_nonneg. lia.
Qed.
Lemma units_le : forall p x b, (0 <= b)%Z -> at_most b x -> (units p x / 10 ^ Z.of_nat p <= 10 ^ b)%Z.
Proof.
  intros p x b B H. unfold units. assert (P : (0 < 10 ^ Z.of_nat p)%Z) by (apply Z.pow_pos_nonneg; lia).
  apply Z.div_le_upper_bound; [exact P|]. rewrite <- (ZnearestE_IZR (10 ^ Z.of_nat p * 10 ^ b)).
  apply nearest_le. rewrite mult_IZR, Rmult_comm. apply Rmult_le_compat_l; [apply IZR_le; lia|exact H].
Qed.
Lemma units_ge : forall p x b, (0 <= b)%Z -> IZR (10 ^ b) <= x -> (10 ^ b <= units p x / 10 ^ Z.of_nat p)%Z.
Proof.
  intros p x b B H. unfold units. assert (P : (0 < 10 ^ Z.of_nat p)%Z) by (apply Z.pow_pos_nonneg; lia).
  apply Z.div_le_lower_bound; [exact P|]. rewrite <- (ZnearestE_IZR (10 ^ Z.of_nat p * 10 ^ b)).
  apply nearest_le. rewrite mult_IZR, Rmult_comm. apply Rmult_le_compat_r; [apply IZR_le; lia|].
  apply Rle_trans with x; [exact H|apply Rle_abs].
Qed.
Definition decimals (p : nat) (m : Z) : string := match p with O => "" | _ => "." +++ dec p m end.
Lemma fixed_text_eq : forall p x,
  fixed_text p x = (if Rltb x 0 then "-" else "") +++ print_uint (units p x / 10 ^ Z.of_nat p) +++ decimals p (units p x).
Proof. reflexivity. Qed.
Lemma decimals_len : forall p m, String.length (decimals p m) = match p with O => O | _ => S p end.
Proof. intros [|p] m; [reflexivity|]. unfold decimals. rewrite slen_app, dec_length. reflexivity. Qed.
Lemma fixed_len_le : forall p x b, at_most (Z.of_nat b) x -> (String.length (fixed_text p x) <= b + p + 3)%nat.
Proof.
  intros p x b H. rewrite fixed_text_eq, !slen_app, decimals_len.
  assert (U : (String.length (print_uint (units p x / 10 ^ Z.of_nat p)) <= S b)%nat).
  { apply print_uint_len_le. split; [apply Z.div_pos; [apply units_nonneg|apply Z.pow_pos_nonneg; lia]|].
    apply Z.le_lt_trans with (10 ^ Z.of_nat b)%Z; [apply units_le; [lia|exact H]|]. apply Z.pow_lt_mono_r; lia. }
  destruct (Rltb x 0), p; cbn [String.length]; lia.
Qed.
Lemma fixed_len_ge : forall p x b, IZR (10 ^ Z.of_nat b) <= x -> (b + 1 + match p with O => O | _ => S p end <= String.length (fixed_text p x))%nat.
Proof.
  intros p x b H. rewrite fixed_text_eq, !slen_app, decimals_len.
  assert (U : (S b <= String.length (print_uint (units p x / 10 ^ Z.of_nat p)))%nat).
  { apply print_uint_len_ge. apply units_ge; [lia|exact H]. }
  lia.
Qed.
Lemma c_str_len : forall s, (String.length (c_str s) <= String.length s)%nat.
Proof. induction s; cbn [c_str String.length]; [lia|]. destruct (byte a =? 0)%Z; cbn [String.length]; lia. Qed.

Fixpoint total_len (l : list conv) : nat := match l with [] => O | c :: t => String.length (conv_text c) + total_len t end.
Lemma line_len : forall l, String.length (line_text l) = total_len l.
Proof. induction l; [reflexivity|]. cbn [line_text total_len]. rewrite slen_app. lia. Qed.
Lemma total_len_app : forall a b, total_len (a ++ b) = (total_len a + total_len b)%nat.
Proof. induction a; intros; [reflexivity|]. cbn [app total_len]. rewrite IHa. lia. Qed.

(** ** Words *)
Fixpoint no_gap (s : string) : Prop := match s with EmptyString => True | String c t => is_gap c = false /\ no_gap t end.
Lemma no_gap_app : forall a b, no_gap a -> no_gap b -> no_gap (a +++ b).
Proof. induction a; cbn; [tauto|]. intros b [H1 H2] H. split; auto. Qed.
Lemma isdigit_no_gap : forall c, isdigit c = true -> is_gap c = false.
Proof. intros c H. destruct c as [[] [] [] [] [] [] [] []]; try discriminate; reflexivity. Qed.
Lemma dec_no_gap : forall k z, no_gap (dec k z).
Proof.
  induction k; intros z; [exact I|]. cbn [dec]. apply no_gap_app; [apply IHk|]. split; [|exact I].
  apply isdigit_no_gap, digit_isdigit. pose proof (Z.mod_pos_bound z 10 ltac:(lia)). lia.
Qed.
Lemma print_int_no_gap : forall z, no_gap (print_int z).
Proof. intros z. unfold print_int. destruct (z <? 0)%Z; [split; [reflexivity|]|]; apply dec_no_gap. Qed.
Lemma fixed_no_gap : forall p x, no_gap (fixed_text p x).
Proof.
  intros. rewrite fixed_text_eq. apply no_gap_app; [destruct (Rltb x 0); cbn; auto|].
  apply no_gap_app; [apply dec_no_gap|]. destruct p; [exact I|]. unfold decimals. split; [reflexivity|]. apply dec_no_gap.
Qed.
Lemma words_run : forall s cur t, no_gap s -> words_from (s +++ t) cur = words_from t (cur ++ s)%string.
Proof.
  induction s; intros cur t H; cbn [String.append].
  - f_equal. rewrite <- (sapp_nil_r cur) at 1. reflexivity.
  - destruct H as [H1 H2]. cbn [words_from]. rewrite H1, IHs by exact H2. f_equal. rewrite sapp_assoc. reflexivity.
Qed.
Fixpoint all_gap (s : string) : Prop := match s with EmptyString => True | String c t => is_gap c = true /\ all_gap t end.
Lemma words_skip : forall s t, all_gap s -> words_from (s +++ t) "" = words_from t "".
Proof. induction s; intros t H; [reflexivity|]. destruct H as [H1 H2]. cbn [String.append words_from]. rewrite H1. now apply IHs. Qed.
Lemma words_end : forall s t cur, cur <> "" -> all_gap s -> s <> "" -> words_from (s +++ t) cur = cur :: words_from t "".
Proof.
  intros [|c s] t cur N H E; [congruence|]. destruct H as [H1 H2]. cbn [String.append words_from]. rewrite H1.
  destruct cur; [congruence|]. f_equal. now apply words_skip.
Qed.
Lemma spaces_gap : forall n, all_gap (spaces n).
Proof. induction n; cbn; auto. Qed.

(** the entries of a line: words and gaps; before the end of each word comes a gap *)
Fixpoint conv_words (l : list conv) : list entry :=
  match l with
  | [] => []
  | L _ :: t => conv_words t
  | D _ z :: t => Whole z :: conv_words t
  | F _ p x :: t => Number p x :: conv_words t
  | S_ _ s :: t => match c_str s with EmptyString => conv_words t | _ => Word (c_str s) :: conv_words t end
  end.
(** every conversion is followed by a text that begins with a gap *)
Definition word_like (s : string) : Prop := no_gap (c_str s).
Fixpoint separated (l : list conv) : Prop :=
  match l with
  | [] => True
  | L s :: t => all_gap s /\ separated t
  | c :: ((L s :: _) as t) => match c with S_ _ i => word_like i | _ => True end /\ s <> "" /\ separated t
  | _ => False
  end.

Lemma print_int_read : forall z, is_int z (print_int z).
Proof.
  intros z. unfold is_int, print_int.
  assert (U : forall u, (0 <= u)%Z -> exists c t, print_uint u = String c t /\ isdigit c = true /\
      exists k, (1 <= k)%nat /\ read_digits (print_uint u) 0 0 = (u, k, "")).
  { intros u Hu. destruct (print_uint_head u Hu) as [c [t [E D]]]. exists c, t. split; [exact E|]. split; [exact D|].
    destruct (print_uint_read u "" 0 0 Hu I) as [k [K R]]. rewrite sapp_nil_r in R. exists k. split; [exact K|].
    rewrite R. repeat f_equal; lia. }
  destruct (Z.ltb_spec z 0).
  - destruct (U (- z)%Z ltac:(lia)) as [c [t [E [D [k [K R]]]]]].
    unfold read_decimal. cbn [skip_ws]. change (IsWhiteSpace "-") with false. cbn [read_sign]. change (ceqb "-" "-") with true.
    cbv iota beta. rewrite R. cbv iota beta. replace (Nat.eqb (k + 0) 0) with false by (symmetry; apply Nat.eqb_neq; lia).
    cbn [read_exp Z.of_nat]. f_equal; lia.
  - destruct (U z ltac:(lia)) as [c [t [E [D [k [K R]]]]]].
    destruct (isdigit_plain c D) as [W [M P]].
    unfold read_decimal. rewrite E. cbn [skip_ws]. rewrite W. cbn [read_sign]. rewrite M, P. rewrite <- E, R. cbv iota beta.
    replace (Nat.eqb (k + 0) 0) with false by (symmetry; apply Nat.eqb_neq; lia). reflexivity.
Qed.

Lemma pow_IZR : forall p, (IZR (10 ^ Z.of_nat p) = 10 ^ p)%R.
Proof.
  induction p; [reflexivity|]. rewrite Nat2Z.inj_succ, Z.pow_succ_r, mult_IZR, IHp by lia. reflexivity.
Qed.
Lemma fixed_read_abs : forall p m t, (0 <= m)%Z -> t = print_uint (m / 10 ^ Z.of_nat p) +++ decimals p m ->
  let '(v, n, r) := read_digits t 0 0 in
  let '(w, k, r2) := match r with
                     | String c u => if ceqb c "." then read_digits u v 0 else (v, 0%nat, r)
                     | EmptyString => (v, 0%nat, r)
                     end in
  w = m /\ (1 <= n)%nat /\ k = p /\ r2 = "".
Proof.
  intros p m t M ->. assert (P : (0 < 10 ^ Z.of_nat p)%Z) by (apply Z.pow_pos_nonneg; lia).
  assert (Q : (0 <= m / 10 ^ Z.of_nat p)%Z) by (apply Z.div_pos; lia).
  assert (ND : nondigit_first (decimals p m)) by (destruct p; [exact I|reflexivity]).
  destruct (print_uint_read _ (decimals p m) 0 0 Q ND) as [k [K R]]. rewrite R.
  destruct p as [|p].
  - cbn [decimals]. change (10 ^ Z.of_nat 0)%Z with 1%Z. rewrite Z.div_1_r. repeat split; lia.
  - unfold decimals. change ("." +++ dec (S p) m) with (String "."%char (dec (S p) m)). cbv iota. change (ceqb "." ".") with true. cbv iota.
    rewrite <- (sapp_nil_r (dec (S p) m)), read_digits_dec by exact M. cbn [read_digits].
    repeat split; try lia. rewrite Z.mul_0_l, Z.add_0_l. rewrite Z.mul_comm, <- Z.div_mod; lia.
Qed.
Lemma fixed_read : forall p x, exists m, read_decimal (fixed_text p x) = (m, (- Z.of_nat p)%Z) /\
  m = if Rltb x 0 then (- units p x)%Z else units p x.
Proof.
  intros p x. assert (M := units_nonneg p x). pose proof (fixed_read_abs p (units p x) _ M eq_refl) as A.
  rewrite fixed_text_eq. set (t := print_uint _ +++ _) in *.
  assert (H : exists c u, t = String c u /\ isdigit c = true).
  { destruct (print_uint_head (units p x / 10 ^ Z.of_nat p)) as [c [u [E D]]].
    - apply Z.div_pos; [exact M|apply Z.pow_pos_nonneg; lia].
    - exists c, (u +++ decimals p (units p x)). unfold t. rewrite E. split; [reflexivity|exact D]. }
  destruct H as [c [u [E D]]]. destruct (isdigit_plain c D) as [W [Mi Pl]].
  assert (S1 : forall b : bool, read_sign (skip_ws ((if b then "-" else "") +++ t)) = (b, t)).
  { intros []; cbn [String.append].
    - cbn [skip_ws]. change (IsWhiteSpace "-") with false. reflexivity.
    - rewrite E. cbn [skip_ws]. rewrite W. cbn [read_sign]. rewrite Mi, Pl. reflexivity. }
  unfold read_decimal. rewrite S1.
  destruct (read_digits t 0 0) as [[v n] r]. destruct (match r with String c0 u0 => if ceqb c0 "." then read_digits u0 v 0 else (v, 0%nat, r) | "" => (v, 0%nat, r) end) as [[w k] r2].
  destruct A as [-> [N [-> ->]]].
  replace (Nat.eqb (n + p) 0) with false by (symmetry; apply Nat.eqb_neq; lia).
  cbn [read_exp]. eexists. split; [f_equal; lia|]. destruct (Rltb x 0); reflexivity.
Qed.
Lemma fixed_near : forall p x, is_near p x (fixed_text p x).
Proof.
  intros p x. destruct (fixed_read p x) as [m [R E]]. exists m. split; [exact R|].
  pose proof (Znearest_half (fun t => negb (Z.even t)) (Rabs x * IZR (10 ^ Z.of_nat p))) as H.
  fold (units p x) in H. rewrite pow_IZR in H.
  destruct (Rltb_spec x 0); subst m.
  - rewrite (Rabs_left x) in H by assumption. rewrite opp_IZR.
    replace (- IZR (units p x) - x * 10 ^ p)%R with (- x * 10 ^ p - IZR (units p x))%R by ring. exact H.
  - rewrite (Rabs_right x) in H by lra. rewrite Rabs_minus_sym. exact H.
Qed.

(** the words of a line are those of its conversions *)
Definition conv_word (c : conv) : string :=
  match c with L _ => "" | D _ z => print_int z | F _ p x => fixed_text p x | S_ _ s => c_str s end.
Lemma conv_word_entry : forall c, match c with S_ _ _ | L _ => False | _ => True end ->
  exists e, (forall t, conv_words (c :: t) = e :: conv_words t) /\ entry_is e (conv_word c) /\ conv_word c <> "".
Proof.
  intros [| | |] H; try contradiction.
  - exists (Whole z). split; [reflexivity|]. split; [apply print_int_read|]. cbn [conv_word]. intros E.
    unfold print_int in E. destruct (Z.ltb_spec z 0); [discriminate|].
    destruct (print_uint_head z) as [c [u [E1 _]]]; [lia|]. congruence.
  - exists (Number p x). split; [reflexivity|]. split; [apply fixed_near|]. cbn [conv_word]. rewrite fixed_text_eq. intros E.
    destruct (print_uint_head (units p x / 10 ^ Z.of_nat p)) as [c [u [E1 _]]];
      [apply Z.div_pos; [apply units_nonneg|apply Z.pow_pos_nonneg; lia]|].
    rewrite E1 in E. destruct (Rltb x 0); discriminate.
Qed.
Lemma line_words : forall l, separated l -> Forall2 entry_is (conv_words l) (words_from (line_text l) "").
Proof.
  intros l. remember (List.length l) as n eqn:N. assert (N' : (List.length l <= n)%nat) by lia. clear N.
  revert l N'. induction n; intros l N S; [destruct l; [constructor|cbn in N; lia]|].
  destruct l as [|c t]; [constructor|].
  destruct c as [s| w z | w p x | w i].
  - destruct S as [G S]. cbn [line_text conv_text conv_words]. rewrite words_skip by exact G. apply IHn; [cbn in N; lia|exact S].
  - destruct t as [|[s| | |] t]; try (cbn in S; tauto). destruct S as [_ [E [G S]]].
    destruct (conv_word_entry (D w z) I) as [e [E1 [E2 E3]]]. rewrite E1. cbn [line_text conv_text conv_words] in *. unfold padded.
    rewrite !sapp_assoc. rewrite words_skip by apply spaces_gap. rewrite words_run by apply print_int_no_gap.
    rewrite words_end; [|exact E3|exact G|exact E]. constructor; [exact E2|]. apply IHn; [cbn in N; lia|exact S].
  - destruct t as [|[s| | |] t]; try (cbn in S; tauto). destruct S as [_ [E [G S]]].
    destruct (conv_word_entry (F w p x) I) as [e [E1 [E2 E3]]]. rewrite E1. cbn [line_text conv_text conv_words] in *. unfold padded.
    rewrite !sapp_assoc. rewrite words_skip by apply spaces_gap. rewrite words_run by apply fixed_no_gap.
    rewrite words_end; [|exact E3|exact G|exact E]. constructor; [exact E2|]. apply IHn; [cbn in N; lia|exact S].
  - destruct t as [|[s| | |] t]; try (cbn in S; tauto). destruct S as [Wl [E [G S]]].
    cbn [line_text conv_text conv_words]. unfold padded. rewrite !sapp_assoc. rewrite words_skip by apply spaces_gap.
    rewrite words_run by exact Wl. cbn [String.append].
    assert (IH := IHn t ltac:(cbn in N; lia) S).
    destruct (c_str i) as [|a u] eqn:Ci.
    + rewrite words_skip by exact G. exact IH.
    + rewrite words_end; [|discriminate|exact G|exact E]. constructor; [reflexivity|]. exact IH.
Qed.
