From Coq Require Import ZArith List String Ascii Bool Lia.
From Verif Require Import Base BaseProofs XmlModel XmlSpec XmlProofs XmlProofs2 XmlProofs3 NumModel NumSpec NumProofs HxModel HxSpec.
Import ListNotations.

(** ** Names *)
Definition name_byteb (c : ascii) : bool :=
  let b := byte c in
  (((65 <=? b) && (b <=? 90)) || ((97 <=? b) && (b <=? 122)) || (b =? 95) || (127 <=? b)
   || ((48 <=? b) && (b <=? 57)) || (b =? 45) || (b =? 46) || (b =? 58))%Z%bool.
Definition start_byteb (c : ascii) : bool :=
  let b := byte c in
  (((65 <=? b) && (b <=? 90)) || ((97 <=? b) && (b <=? 122)) || (b =? 95) || (127 <=? b))%Z%bool.
Fixpoint allb (f : ascii -> bool) (s : string) : bool :=
  match s with EmptyString => true | String c t => f c && allb f t end.
Definition xml_nameb (s : string) : bool :=
  match s with EmptyString => false | String c t => start_byteb c && allb name_byteb t end.

Lemma allb_spec : forall f s, allb f s = true <-> forall c, contains_byte c s -> f c = true.
Proof.
  intros f. induction s as [|d s IH]; cbn.
  - split; [|reflexivity]. intros _ c C. destruct (contains_byte_nil _ C).
  - rewrite andb_true_iff, IH. split.
    + intros [A B] c C. apply contains_byte_inv in C. destruct C as [->|C]; auto.
    + intros H. split; [apply H; apply contains_byte_here|]. intros c [a [b E]]. apply H. exists (String d a), b. rewrite E. reflexivity.
Qed.

Lemma xml_nameb_spec : forall s, xml_nameb s = true -> xml_name s.
Proof.
  intros [|c t] H; [discriminate|]. cbn in H. apply andb_true_iff in H. destruct H as [A B].
  exists c, t. split; [reflexivity|]. split.
  - unfold start_byteb in A. unfold start_byte. rewrite !orb_true_iff, !andb_true_iff, !Z.leb_le, Z.eqb_eq in A. lia.
  - intros d D. pose proof (proj1 (allb_spec _ _) B d D) as N. unfold name_byteb in N. unfold name_byte, start_byte.
    rewrite !orb_true_iff, !andb_true_iff, !Z.leb_le, !Z.eqb_eq in N. lia.
Qed.

(** ** Values without surprises *)
Definition clean (s : string) : Prop := no_nul s /\ charref_free s.
Definition plain_char (c : ascii) : bool := negb (byte c =? 0)%Z && negb (ceqb c "&").
Definition plainb (s : string) : bool := allb plain_char s.

Lemma plain_clean : forall s, plainb s = true -> clean s.
Proof.
  intros s H. assert (P := proj1 (allb_spec _ _) H). split.
  - intros c C Z. specialize (P c C). unfold plain_char in P. rewrite Z in P. discriminate.
  - intros [a [b E]]. specialize (P "&"%char). unfold plain_char in P. change (ceqb "&" "&") with true in P.
    rewrite andb_false_r in P. discriminate P. exists a, ("#x" +++ b). rewrite E. reflexivity.
Qed.

Lemma allb_app : forall f a b, allb f (a +++ b) = allb f a && allb f b.
Proof. intros f a b. induction a as [|c a IH]; cbn; [reflexivity|]. rewrite IH, andb_assoc. reflexivity. Qed.

Lemma dec_all : forall f, (forall z, (0 <= z <= 9)%Z -> f (digit z) = true) -> forall k z, allb f (dec k z) = true.
Proof.
  intros f F. induction k; intros z; cbn; [reflexivity|].
  rewrite allb_app, IHk. cbn. rewrite F; [reflexivity|]. pose proof (Z.mod_pos_bound z 10 ltac:(lia)). lia.
Qed.

Lemma print_int_all : forall f z, (forall z, (0 <= z <= 9)%Z -> f (digit z) = true) -> f "-"%char = true -> allb f (print_int z) = true.
Proof.
  intros f z F M. unfold print_int, print_uint. destruct (z <? 0)%Z; cbn [allb]; [rewrite M|]; rewrite dec_all by exact F; reflexivity.
Qed.

Lemma print_double_all : forall f x, (forall z, (0 <= z <= 9)%Z -> f (digit z) = true) ->
  f "-"%char = true -> f "+"%char = true -> f "."%char = true -> f "e"%char = true -> allb f (print_double x) = true.
Proof.
  intros f x F M P D E. unfold print_double. destruct (Z.eqb _ 0).
  - assert (Z0 : f "0"%char = true) by (apply (F 0%Z); lia). cbn. rewrite Z0, D, E, P. reflexivity.
  - rewrite allb_app. apply andb_true_iff. split; [destruct (Z.ltb _ 0); cbn; rewrite ?M; reflexivity|].
    unfold print_sci, print_exp, print_uint. rewrite !allb_app. rewrite !dec_all by exact F. cbn [allb]. rewrite D, E.
    destruct (Z.ltb _ 0); rewrite ?M, ?P; destruct (Z.ltb _ 10); rewrite !dec_all by exact F; reflexivity.
Qed.

Lemma digit_cases : forall (f : ascii -> bool), forallb (fun z => f (digit z)) [0;1;2;3;4;5;6;7;8;9]%Z = true ->
  forall z, (0 <= z <= 9)%Z -> f (digit z) = true.
Proof.
  intros f H z R. rewrite forallb_forall in H. apply H.
  assert (C : (z = 0 \/ z = 1 \/ z = 2 \/ z = 3 \/ z = 4 \/ z = 5 \/ z = 6 \/ z = 7 \/ z = 8 \/ z = 9)%Z) by lia.
  cbn. intuition.
Qed.

Lemma print_int_clean : forall z, clean (print_int z).
Proof. intros z. apply plain_clean. apply (print_int_all plain_char); [apply digit_cases|]; reflexivity. Qed.
Lemma print_double_clean : forall x, clean (print_double x).
Proof. intros x. apply plain_clean. apply (print_double_all plain_char); [apply digit_cases| | | |]; reflexivity. Qed.

Lemma clean_cstr : forall s, clean s -> c_str s = s.
Proof. intros s [N _]. apply c_str_id. exact N. Qed.

(** ** Attributes *)
Fixpoint distinctb (l : list string) : bool :=
  match l with [] => true | x :: t => negb (existsb (String.eqb x) t) && distinctb t end.
Lemma distinctb_spec : forall l, distinctb l = true -> NoDup l.
Proof.
  induction l as [|x l IH]; intros H; constructor; cbn in H; apply andb_true_iff in H; destruct H as [A B].
  - intros I. apply negb_true_iff in A. assert (existsb (String.eqb x) l = true); [|congruence].
    apply existsb_exists. exists x. split; [exact I | apply String.eqb_refl].
  - apply IH. exact B.
Qed.

Lemma find_attr_notin : forall k l, ~ In k (map fst l) -> find_attr k l = None.
Proof.
  intros k l. induction l as [|[n v] l IH]; intros H; [reflexivity|]. cbn in *. destruct (String.eqb_spec n k); [intuition|].
  apply IH. intuition.
Qed.

Lemma set_new : forall k v l, no_nul k -> no_nul v -> ~ In k (map fst l) -> SetAttribute k v l = (l ++ [(k, v)])%list.
Proof.
  intros k v l K V H. unfold SetAttribute. rewrite !c_str_id by assumption. rewrite find_attr_notin by exact H. reflexivity.
Qed.

Lemma attrs_of_id : forall l, NoDup (map fst l) -> (forall k v, In (k, v) l -> no_nul k /\ no_nul v) -> attrs_of l = l.
Proof.
  intros l ND H. unfold attrs_of.
  assert (G : forall l acc, NoDup (map fst (acc ++ l)) -> (forall k v, In (k, v) l -> no_nul k /\ no_nul v) ->
    fold_left (fun a kv => SetAttribute (fst kv) (snd kv) a) l acc = (acc ++ l)%list).
  { clear l ND H. induction l as [|[k v] l IH]; intros acc ND H; cbn [fold_left]; [rewrite app_nil_r; reflexivity|].
    cbn [fst snd]. rewrite set_new.
    - rewrite IH.
      + rewrite <- app_assoc. reflexivity.
      + rewrite <- app_assoc. exact ND.
      + intros k' v' I. apply H. right. exact I.
    - apply (H k v). left. reflexivity.
    - apply (H k v). left. reflexivity.
    - rewrite map_app in ND. cbn in ND. apply NoDup_remove_2 in ND. intros I. apply ND. apply in_or_app. left. exact I. }
  apply (G l []); assumption.
Qed.

Lemma find_attr_in : forall k v l, NoDup (map fst l) -> In (k, v) l -> find_attr k l = Some v.
Proof.
  intros k v l. induction l as [|[n w] l IH]; intros ND I; [destruct I|]. cbn. destruct I as [E|I].
  - injection E as -> ->. rewrite String.eqb_refl. reflexivity.
  - inversion ND as [|? ? NI ND2]; subst. destruct (String.eqb_spec n k) as [->|].
    + destruct NI. apply (in_map fst) in I. exact I.
    + apply IH; assumption.
Qed.

Lemma Attribute_in : forall k v l, NoDup (map fst l) -> In (k, v) l -> no_nul v -> Attribute k l = Some v.
Proof. intros k v l ND I N. unfold Attribute. rewrite (find_attr_in k v l ND I). cbn. rewrite c_str_id by exact N. reflexivity. Qed.

(** names given as literals *)
Definition pairs_ok (l : list (string * string)) : Prop :=
  forallb xml_nameb (map fst l) = true /\ distinctb (map fst l) = true /\ forall v, In v (map snd l) -> clean v.

Lemma name_nonul : forall s, xml_name s -> no_nul s.
Proof.
  intros s [c [t [-> [S H]]]] d D Z. apply contains_byte_inv in D. destruct D as [->|D].
  - unfold start_byte in S. rewrite Z in S. lia.
  - specialize (H d D). unfold name_byte, start_byte in H. lia.
Qed.

Lemma attrs_of_ok : forall l, pairs_ok l -> attrs_of l = l.
Proof.
  intros l [N [D V]]. apply attrs_of_id; [apply distinctb_spec; exact D|].
  intros k v I. rewrite forallb_forall in N. split.
  - apply name_nonul. apply xml_nameb_spec. apply N. apply (in_map fst) in I. exact I.
  - apply V. apply (in_map snd) in I. exact I.
Qed.

Lemma elem_writable : forall n l ch, xml_nameb n = true -> pairs_ok l -> (forall x, In x ch -> writable x) -> no_adjacent_text ch ->
  writable (XElem n (attrs_of l) ch).
Proof.
  intros n l ch N P C T. rewrite attrs_of_ok by exact P. destruct P as [PN [D V]]. constructor.
  - apply xml_nameb_spec. exact N.
  - intros k v I. rewrite forallb_forall in PN. split; [apply xml_nameb_spec; apply PN; apply (in_map fst) in I; exact I|].
    apply V. apply (in_map snd) in I. exact I.
  - apply distinctb_spec. exact D.
  - exact C.
  - exact T.
Qed.

Lemma get_attr : forall n l ch k v, pairs_ok l -> In (k, v) l -> getXMLAttribute (XElem n (attrs_of l) ch) k = Ok v.
Proof.
  intros n l ch k v P I. rewrite attrs_of_ok by exact P. destruct P as [_ [D V]]. unfold getXMLAttribute.
  rewrite (Attribute_in k v l); [reflexivity | apply distinctb_spec; exact D | exact I|].
  apply V. apply (in_map snd) in I. exact I.
Qed.

Lemma elements_no_text : forall ch, (forall x, In x ch -> is_elem x = true) -> no_adjacent_text ch.
Proof.
  induction ch as [|x ch IH]; intros H; [exact I|].
  assert (E : is_elem x = true) by (apply H; left; reflexivity). destruct x; try discriminate.
  cbn. apply IH. intros y Y. apply H. right. exact Y.
Qed.

Lemma rall_ok : forall {A B} (f : A -> result B) (g : A -> B) l, (forall x, In x l -> f x = Ok (g x)) -> rall f l = Ok (map g l).
Proof.
  intros A B f g l. induction l as [|x l IH]; intros H; [reflexivity|].
  cbn. rewrite H by (left; reflexivity). cbn. rewrite IH by (intros; apply H; right; assumption). reflexivity.
Qed.

Lemma rfold_app : forall {A S} (f : S -> A -> result S) a b s, rfold f (a ++ b) s = rbind (rfold f a s) (rfold f b).
Proof.
  intros A S f a. induction a as [|x a IH]; intros b s; [reflexivity|]. cbn. destruct (f s x); cbn; [apply IH | reflexivity | reflexivity].
Qed.

(** ** Files and numbers *)
Lemma via_writable : forall n, writable n -> is_elem n = true -> via_file n = Ok n.
Proof.
  intros n W E. unfold via_file. rewrite document_kept; [reflexivity | discriminate|].
  intros x [<-|[]]. split; [exact W|]. intros s ->. discriminate.
Qed.

Lemma get_int_attr : forall n l ch k z, pairs_ok l -> In (k, print_int z) l -> is_int z -> get_int (XElem n (attrs_of l) ch) k = Ok z.
Proof. intros n l ch k z P I Z. unfold get_int. rewrite (get_attr n l ch k (print_int z) P I). cbn [rbind]. apply int_kept. exact Z. Qed.

Lemma get_double_attr : forall n l ch k x, pairs_ok l -> In (k, print_double x) l ->
  get_double (XElem n (attrs_of l) ch) k = Ok (atof (print_double x)).
Proof. intros n l ch k x P I. unfold get_double. rewrite (get_attr n l ch k (print_double x) P I). reflexivity. Qed.

Lemma filter_all : forall {A} (f : A -> bool) l, (forall x, In x l -> f x = true) -> filter f l = l.
Proof.
  intros A f. induction l as [|x l IH]; intros H; [reflexivity|]. cbn. rewrite H by (left; reflexivity).
  rewrite IH; [reflexivity|]. intros y Y. apply H. right. exact Y.
Qed.

Lemma filter_none : forall {A} (f : A -> bool) l, (forall x, In x l -> f x = false) -> filter f l = [].
Proof.
  intros A f. induction l as [|x l IH]; intros H; [reflexivity|]. cbn. rewrite H by (left; reflexivity).
  apply IH. intros y Y. apply H. right. exact Y.
Qed.

