From Coq Require Import ZArith List String Ascii Bool Reals Lia Sorting.Sorted.
From Verif Require Import Base BaseProofs XmlModel XmlSpec XmlProofs XmlProofs2 XmlProofs3 NumModel NumSpec NumProofs HxModel HxProofs
  ParamsModel ParamsSpec ParamsProofs ParXmlModel ParXmlSpec.
Import ListNotations.

(** ** Words *)
Definition blankless (s : string) : bool := allb (fun c => negb (ceqb c " ")) s.

Lemma app_last_snoc : forall l s c, app_last (l ++ [s]) c = (l ++ [s +++ String c ""])%list.
Proof.
  induction l as [|x l IH]; intros s c; [reflexivity|].
  cbn [app]. destruct (l ++ [s])%list as [|y t] eqn:E; [destruct l; discriminate|].
  change (app_last (x :: y :: t) c) with (x :: app_last (y :: t) c). rewrite <- E, IH. reflexivity.
Qed.

Lemma tok_run : forall w s acc x, blankless w = true -> tok (w +++ s) false (acc ++ [x]) = tok s false (acc ++ [x +++ w]).
Proof.
  induction w as [|c w IH]; intros s acc x B.
  - cbn. rewrite sapp_nil_r. reflexivity.
  - cbn in B. apply andb_true_iff in B. destruct B as [B1 B2]. apply negb_true_iff in B1.
    cbn [String.append tok]. rewrite B1. cbv iota. rewrite app_last_snoc, IH by exact B2.
    rewrite sapp_assoc. reflexivity.
Qed.

Lemma tok_word : forall c w s acc, blankless (String c w) = true -> tok (String c w +++ s) true acc = tok s false (acc ++ [String c w]).
Proof.
  intros c w s acc B. cbn in B. apply andb_true_iff in B. destruct B as [B1 B2]. apply negb_true_iff in B1.
  cbn [String.append tok]. rewrite B1. cbv iota. rewrite app_last_snoc. rewrite tok_run by exact B2. reflexivity.
Qed.

Definition wordb (s : string) : bool := negb (String.eqb s "") && blankless s.

Lemma tokenize_join : forall l, forallb wordb l = true -> tokenize (join l) = l.
Proof.
  intros l H. unfold tokenize.
  assert (G : forall l acc, l <> [] -> forallb wordb l = true -> tok (join l) true acc = (acc ++ l)%list).
  { clear l H. induction l as [|w l IH]; intros acc NE H; [contradiction|].
    cbn in H. apply andb_true_iff in H. destruct H as [W H]. unfold wordb in W. apply andb_true_iff in W. destruct W as [W1 W2].
    destruct w as [|c w]; [discriminate|]. destruct l as [|v l].
    - cbn [join]. rewrite <- (sapp_nil_r (String c w)) at 1. rewrite tok_word by exact W2. reflexivity.
    - change (join (String c w :: v :: l)) with (String c w +++ String " " (join (v :: l))).
      rewrite tok_word by exact W2. cbn [tok]. change (ceqb " " " ") with true. cbv iota.
      rewrite IH; [|discriminate | exact H]. rewrite <- app_assoc. reflexivity. }
  destruct l as [|w l]; [reflexivity|]. apply (G (w :: l) []); [discriminate | exact H].
Qed.

Lemma app_last_all : forall l c, negb (ceqb c " ") = true ->
  Forall (fun s => blankless s = true) l -> Forall (fun s => blankless s = true) (app_last l c).
Proof.
  intros l c N. induction l as [|s l IH]; intros F; [constructor|].
  inversion F as [|? ? F1 F2]; subst. destruct l as [|t l].
  - cbn. constructor; [|constructor]. unfold blankless in *. rewrite allb_app, F1. cbn. rewrite N. reflexivity.
  - change (app_last (s :: t :: l) c) with (s :: app_last (t :: l) c). constructor; [exact F1|]. apply IH. exact F2.
Qed.

Lemma tok_words : forall s b acc, forallb wordb acc = true -> (b = true \/ acc <> []) -> forallb wordb (tok s b acc) = true.
Proof.
  induction s as [|c s IH]; intros b acc H NE; [exact H|].
  cbn [tok]. destruct (ceqb c " ") eqn:C.
  - apply IH; [exact H | left; reflexivity].
  - assert (NC : negb (ceqb c " ") = true) by (rewrite C; reflexivity).
    destruct b.
    + rewrite app_last_snoc. apply IH.
      * rewrite forallb_app, H. cbn. unfold wordb. cbn. rewrite NC. reflexivity.
      * right. destruct acc; discriminate.
    + destruct NE as [NE|NE]; [discriminate|].
      destruct (exists_last NE) as [pre [x E]]. subst acc. rewrite app_last_snoc.
      rewrite forallb_app in H. apply andb_true_iff in H. destruct H as [H1 H2]. cbn in H2. rewrite andb_true_r in H2.
      unfold wordb in H2. apply andb_true_iff in H2. destruct H2 as [H2 H3].
      apply IH.
      * rewrite forallb_app, H1. cbn. rewrite andb_true_r. unfold wordb. apply andb_true_iff. split.
        { destruct x; reflexivity. }
        { unfold blankless in *. rewrite allb_app, H3. cbn. rewrite NC. reflexivity. }
      * right. destruct pre; discriminate.
Qed.

Lemma tokenize_words : forall s, forallb wordb (tokenize s) = true.
Proof. intros s. apply tok_words; [reflexivity | left; reflexivity]. Qed.

Lemma wordb_spec : forall s, wordb s = true <-> s <> ""%string /\ ~ contains_byte " "%char s.
Proof.
  intros s. unfold wordb. rewrite andb_true_iff, negb_true_iff. unfold blankless. rewrite allb_spec.
  split.
  - intros [A B]. split; [intros ->; discriminate|]. intros C. specialize (B _ C). cbv beta in B. discriminate.
  - intros [A B]. split; [apply String.eqb_neq; exact A|]. intros c C. cbv beta. destruct (ceqb c " ") eqn:E; [|reflexivity].
    apply ceqb_true in E. subst. contradiction.
Qed.

Lemma print_int_word : forall z, wordb (print_int z) = true.
Proof.
  intros z. unfold wordb. apply andb_true_iff. split.
  - unfold print_int. destruct (Z.ltb_spec z 0); [reflexivity|]. destruct (print_uint_head z H) as [c [t [E _]]]. rewrite E. reflexivity.
  - apply print_int_all; [|reflexivity]. apply (digit_cases (fun c => negb (ceqb c " "))). reflexivity.
Qed.
Lemma print_double_word : forall x, wordb (print_double x) = true.
Proof.
  intros z. unfold wordb. apply andb_true_iff. split.
  - unfold print_double. destruct (Z.eqb _ 0); [reflexivity|]. destruct (Z.ltb _ 0); reflexivity.
  - apply (print_double_all (fun c => negb (ceqb c " "))); try reflexivity. apply (digit_cases (fun c => negb (ceqb c " "))). reflexivity.
Qed.

(** ** Sorted maps *)
Fixpoint mapopt {A B} (f : A -> option B) (m : smap A) : smap B :=
  match m with
  | [] => []
  | (k, v) :: t => match f v with Some w => (k, w) :: mapopt f t | None => mapopt f t end
  end.

Lemma mapopt_keys : forall {A B} (f : A -> option B) m k, In k (sm_keys (mapopt f m)) -> In k (sm_keys m).
Proof.
  intros A B f. induction m as [|[k v] m IH]; intros x H; [exact H|]. cbn in *. destruct (f v); cbn in *; intuition.
Qed.

Lemma sm_set_end : forall {V} (m : smap V) k v, (forall x, In x (sm_keys m) -> slt x k) -> sm_set k v m = (m ++ [(k, v)])%list.
Proof.
  intros V. induction m as [|[n w] m IH]; intros k v H; [reflexivity|].
  cbn. assert (L : slt n k) by (apply H; left; reflexivity).
  destruct (String.compare k n) eqn:C.
  - apply String.compare_eq_iff in C. subst. destruct (slt_irrefl _ L).
  - destruct (slt_irrefl k). apply slt_trans with n; assumption.
  - rewrite IH by (intros x X; apply H; right; exact X). reflexivity.
Qed.

(** a loop that stores some of the values builds the map of these values *)
Lemma fold_set : forall {A B S} (f : A -> option B) (step : S -> string * A -> result S) (put : smap B -> S) (P : string * A -> Prop),
  (forall m k v, P (k, v) -> step (put m) (k, v) = Ok (put (match f v with Some w => sm_set k w m | None => m end))) ->
  forall l, StronglySorted slt (sm_keys l) -> (forall e, In e l -> P e) ->
  rfold step l (put []) = Ok (put (mapopt f l)).
Proof.
  intros A B S f step put P H l SS HP.
  assert (G : forall l acc, StronglySorted slt (sm_keys l) -> (forall e, In e l -> P e) ->
    (forall x y, In x (sm_keys acc) -> In y (sm_keys l) -> slt x y) ->
    rfold step l (put acc) = Ok (put (acc ++ mapopt f l)%list)).
  { clear l SS HP. induction l as [|[k v] l IH]; intros acc SS HP HA.
    - cbn. rewrite app_nil_r. reflexivity.
    - cbn [rfold]. rewrite H by (apply HP; left; reflexivity). cbn [rbind].
      cbn in SS. apply StronglySorted_inv in SS. destruct SS as [SS1 SS2]. rewrite Forall_forall in SS2.
      cbn [mapopt]. destruct (f v) as [w|].
      + rewrite sm_set_end by (intros x X; apply HA; [exact X | left; reflexivity]).
        rewrite IH.
        * rewrite <- app_assoc. reflexivity.
        * exact SS1.
        * intros e E. apply HP. right. exact E.
        * intros x y X Y. unfold sm_keys in X. rewrite map_app in X. apply in_app_or in X. destruct X as [X|[<-|[]]].
          { apply HA; [exact X | right; exact Y]. }
          { apply SS2. exact Y. }
      + rewrite IH; [reflexivity | exact SS1 | intros e E; apply HP; right; exact E|].
        intros x y X Y. apply HA; [exact X | right; exact Y]. }
  apply (G l []); auto. intros x y [].
Qed.

Lemma mapopt_id : forall {A} (f : A -> option A) m, mapopt f m = m <-> forall k v, In (k, v) m -> f v = Some v.
Proof.
  intros A f m. split.
  - assert (L : forall m, (List.length (mapopt f m) <= List.length m)%nat).
    { clear. induction m as [|[k v] m IH]; cbn; [lia|]. destruct (f v); cbn; lia. }
    induction m as [|[k v] m IH]; intros E k' v' I; [destruct I|].
    cbn in E. destruct (f v) as [w|] eqn:F.
    + injection E as <- E. destruct I as [I|I]; [injection I as <- <-; exact F|]. eapply IH; eassumption.
    + pose proof (L m) as LM. rewrite E in LM. cbn in LM. lia.
  - induction m as [|[k v] m IH]; intros H; [reflexivity|].
    cbn. rewrite (H k v) by (left; reflexivity). rewrite IH; [reflexivity|]. intros k' v' I. apply (H k'). right. exact I.
Qed.

Lemma keys_lookup : forall {V W} (m : smap V) (f : string -> V -> W), StronglySorted slt (sm_keys m) ->
  rall (fun k => rmap (f k) (lookup_or_throw k m)) (sm_keys m) = Ok (map (fun e => f (fst e) (snd e)) m).
Proof.
  intros V W m f SS.
  assert (G : forall l, (forall e, In e l -> In e m) -> rall (fun k => rmap (f k) (lookup_or_throw k m)) (sm_keys l) = Ok (map (fun e => f (fst e) (snd e)) l)).
  { induction l as [|[k v] l IH]; intros H; [reflexivity|]. cbn [sm_keys map rall].
    assert (F : sm_find k m = Some v).
    { apply sm_find_some_iff; [exact SS|]. apply H. left. reflexivity. }
    cbn [fst]. unfold lookup_or_throw at 1. rewrite F. cbn [rmap rbind]. unfold sm_keys in IH. rewrite IH; [reflexivity|].
    intros e E. apply H. right. exact E. }
  apply G. auto.
Qed.

(** ** Bytes of words and of cut strings *)
Lemma app_last_bytes : forall f l c, f c = true -> forallb (allb f) l = true -> forallb (allb f) (app_last l c) = true.
Proof.
  intros f l c N. induction l as [|s l IH]; intros F; [reflexivity|].
  cbn in F. apply andb_true_iff in F. destruct F as [F1 F2]. destruct l as [|t l].
  - cbn. rewrite allb_app, F1. cbn. rewrite N. reflexivity.
  - change (app_last (s :: t :: l) c) with (s :: app_last (t :: l) c). cbn [forallb]. rewrite F1. apply IH. exact F2.
Qed.

Lemma tok_bytes : forall f s b acc, allb f s = true -> forallb (allb f) acc = true -> forallb (allb f) (tok s b acc) = true.
Proof.
  intros f. induction s as [|c s IH]; intros b acc A H; [exact H|].
  cbn in A. apply andb_true_iff in A. destruct A as [A1 A2]. cbn [tok]. destruct (ceqb c " ").
  - apply IH; assumption.
  - apply IH; [exact A2|]. apply app_last_bytes; [exact A1|]. destruct b; [rewrite forallb_app, H; reflexivity | exact H].
Qed.

Definition nonul_char (c : ascii) : bool := negb (byte c =? 0)%Z.
Lemma nonul_iff : forall s, no_nul s <-> allb nonul_char s = true.
Proof.
  intros s. rewrite allb_spec. unfold no_nul, nonul_char. split; intros H c C; specialize (H c C).
  - apply negb_true_iff. apply Z.eqb_neq. exact H.
  - apply negb_true_iff in H. apply Z.eqb_neq in H. exact H.
Qed.

Lemma c_str_nonul : forall s, no_nul (c_str s).
Proof.
  intros s. apply nonul_iff. induction s as [|c s IH]; [reflexivity|]. cbn. unfold nonul_char in *.
  destruct (byte c =? 0)%Z eqn:E; [reflexivity|]. cbn. rewrite E. exact IH.
Qed.

Lemma c_str_prefix : forall s, exists t, s = c_str s +++ t.
Proof.
  induction s as [|c s [t IH]]; [exists ""%string; reflexivity|]. cbn. destruct (byte c =? 0)%Z.
  - exists (String c s). reflexivity.
  - exists t. cbn. rewrite <- IH. reflexivity.
Qed.

Lemma charref_prefix : forall a b, charref_free (a +++ b) -> charref_free a.
Proof.
  intros a b H [x [y E]]. apply H. exists x, (y +++ b). rewrite E, !sapp_assoc. reflexivity.
Qed.

Lemma charref_cstr : forall s, charref_free s -> charref_free (c_str s).
Proof. intros s H. destruct (c_str_prefix s) as [t E]. rewrite E in H. eapply charref_prefix. exact H. Qed.

Lemma charref_blank : forall a b, charref_free a -> charref_free b -> charref_free (a +++ String " " b).
Proof.
  intros a b A B [x [y E]]. revert x E. induction a as [|c a IH]; intros x E.
  - destruct x as [|d x]; cbn in E; [discriminate|]. injection E as _ E. apply B. exists x, y. exact E.
  - destruct x as [|d x].
    + cbn in E. injection E as -> E. destruct a as [|c1 a]; cbn in E; [discriminate|]. injection E as -> E.
      destruct a as [|c2 a]; cbn in E; [discriminate|]. injection E as -> E. apply A. exists ""%string, a. reflexivity.
    + cbn in E. injection E as -> E. apply (IH) in E; [exact E|]. intros [u [v U]]. apply A. exists (String d u), v. cbn. rewrite U. reflexivity.
Qed.

Lemma charref_join : forall l, (forall s, In s l -> charref_free s) -> charref_free (join l).
Proof.
  induction l as [|s l IH]; intros H.
  - intros [x [y E]]. destruct x; discriminate.
  - destruct l as [|t l].
    + apply H. left. reflexivity.
    + change (join (s :: t :: l)) with (s +++ String " " (join (t :: l))). apply charref_blank; [apply H; left; reflexivity|].
      apply IH. intros v V. apply H. right. exact V.
Qed.

Lemma join_clean : forall l, (forall s, In s l -> clean s) -> clean (join l).
Proof.
  intros l H. split; [|apply charref_join; intros s S; apply H; exact S].
  apply nonul_iff. induction l as [|s l IH]; [reflexivity|]. destruct l as [|t l].
  - apply nonul_iff. apply H. left. reflexivity.
  - change (join (s :: t :: l)) with (s +++ String " " (join (t :: l))). rewrite allb_app.
    apply andb_true_iff. split; [apply nonul_iff; apply H; left; reflexivity|]. cbn [allb]. rewrite IH; [reflexivity|].
    intros v V. apply H. right. exact V.
Qed.

(** ** One element *)
Lemma param_elem_eq : forall k ty v, no_nul k -> no_nul ty ->
  param_elem k ty v = XElem "parameter" [("name", k); ("type", ty); ("value", c_str v)]%string [].
Proof.
  intros k ty v K T. unfold param_elem, attrs_of. cbn [fold_left fst snd]. unfold SetAttribute.
  rewrite (c_str_id k K), (c_str_id ty T). reflexivity.
Qed.

Lemma read_param_elem : forall p k ty v, no_nul k -> no_nul ty ->
  read_param p (param_elem k ty v) =
  match tokenize (c_str v) with
  | [] => Ok p
  | t0 :: ts =>
      if String.eqb ty "int" then rmap (setIntVal p k) (atoi t0)
      else if String.eqb ty "double" then Ok (setDoubleVal p k (atof t0))
      else if String.eqb ty "string" then Ok (setStringVal p k t0)
      else if String.eqb ty "IntVec" then rmap (setIntVals p k) (rall atoi (t0 :: ts))
      else if String.eqb ty "DoubleVec" then Ok (setDoubleVals p k (map atof (t0 :: ts)))
      else if String.eqb ty "StringVec" then Ok (setStringVals p k (t0 :: ts))
      else Ok p
  end.
Proof.
  intros p k ty v K T. rewrite param_elem_eq by assumption.
  assert (GV : getXMLAttribute (XElem "parameter" [("name", k); ("type", ty); ("value", c_str v)]%string []) "value" = Ok (c_str v)).
  { unfold getXMLAttribute, Attribute. cbn -[c_str]. rewrite c_str_id by apply c_str_nonul. reflexivity. }
  assert (GN : getXMLAttribute (XElem "parameter" [("name", k); ("type", ty); ("value", c_str v)]%string []) "name" = Ok k).
  { unfold getXMLAttribute, Attribute. cbn -[c_str]. rewrite c_str_id by exact K. reflexivity. }
  assert (GT : getXMLAttribute (XElem "parameter" [("name", k); ("type", ty); ("value", c_str v)]%string []) "type" = Ok ty).
  { unfold getXMLAttribute, Attribute. cbn -[c_str]. rewrite c_str_id by exact T. reflexivity. }
  unfold read_param, param_value. rewrite GV. destruct (tokenize (c_str v)); [reflexivity|].
  rewrite GN. cbn [rbind]. rewrite GT. reflexivity.
Qed.

Lemma plain_nonul : forall s, plainb s = true -> no_nul s.
Proof. intros s H. apply plain_clean. exact H. Qed.

(** what becomes of a value *)
Definition back_double (x : R) : option R := Some (atof (print_double x)).
Definition back_string (s : string) : option string := hd_error (tokenize (c_str s)).
Definition back_ints (l : list Z) : option (list Z) := match l with [] => None | _ => Some l end.
Definition back_doubles (l : list R) : option (list R) := match l with [] => None | _ => Some (map (fun x => atof (print_double x)) l) end.
Definition back_strings (l : list string) : option (list string) := match tokenize (c_str (join l)) with [] => None | ts => Some ts end.

Definition back (p : params) : params :=
  mkParams (p_int p) (mapopt back_double (p_double p)) (mapopt back_string (p_string p)) (mapopt back_ints (p_intVec p))
    (mapopt back_doubles (p_doubleVec p)) (mapopt back_strings (p_stringVec p)).

Definition sorted_params (p : params) : Prop := forall t, StronglySorted slt (do_keys t p).

Lemma rfold_map : forall {A B S} (g : A -> B) (f : S -> B -> result S) l s, rfold f (map g l) s = rfold (fun s e => f s (g e)) l s.
Proof.
  intros A B S g f. induction l as [|x l IH]; intros s; [reflexivity|]. cbn. destruct (f s (g x)); [apply IH | reflexivity | reflexivity].
Qed.

Definition all_elems (p : params) : list xnode :=
  (map (fun e => param_elem (fst e) "int" (print_int (snd e))) (p_int p)
  ++ map (fun e => param_elem (fst e) "double" (print_double (snd e))) (p_double p)
  ++ map (fun e => param_elem (fst e) "string" (snd e)) (p_string p)
  ++ map (fun e => param_elem (fst e) "IntVec" (join (map print_int (snd e)))) (p_intVec p)
  ++ map (fun e => param_elem (fst e) "DoubleVec" (join (map print_double (snd e)))) (p_doubleVec p)
  ++ map (fun e => param_elem (fst e) "StringVec" (join (snd e))) (p_stringVec p))%list.

Lemma to_xml_elems : forall p, sorted_params p -> params_to_xml p = Ok (all_elems p).
Proof.
  intros p S. unfold params_to_xml, getIntVal, getIntKeys, getDoubleVal, getDoubleKeys, getStringVal, getStringKeys,
    getIntVals, getIntVecKeys, getDoubleVals, getDoubleVecKeys, getStringVals, getStringVecKeys.
  rewrite (keys_lookup (p_int p) (fun k v => param_elem k "int" (print_int v)) (S TInt)). cbn [rbind].
  rewrite (keys_lookup (p_double p) (fun k v => param_elem k "double" (print_double v)) (S TDouble)). cbn [rbind].
  rewrite (keys_lookup (p_string p) (fun k v => param_elem k "string" v) (S TString)). cbn [rbind].
  rewrite (keys_lookup (p_intVec p) (fun k v => param_elem k "IntVec" (join (map print_int v))) (S TInts)). cbn [rbind].
  rewrite (keys_lookup (p_doubleVec p) (fun k v => param_elem k "DoubleVec" (join (map print_double v))) (S TDoubles)). cbn [rbind].
  rewrite (keys_lookup (p_stringVec p) (fun k v => param_elem k "StringVec" (join v)) (S TStrings)). reflexivity.
Qed.

(** names and numbers of a parameter set are such that a file can hold them *)
Definition text_ok_params (p : params) : Prop := forall t k v, do_get t p k = Ok v -> clean k /\ text_ok v.

Lemma get_in : forall {V} (m : smap V) k v, StronglySorted slt (sm_keys m) -> (lookup_or_throw k m = Ok v <-> In (k, v) m).
Proof.
  intros V m k v S. unfold lookup_or_throw. rewrite <- (sm_find_some_iff m k S). destruct (sm_find k m); split; intros H; congruence.
Qed.

Lemma rmap_ok : forall {A B} (f : A -> B) r b, rmap f r = Ok b <-> exists a, r = Ok a /\ b = f a.
Proof.
  intros A B f [a|e|] b; cbn; split; intros H.
  - injection H as <-. eauto.
  - destruct H as [a' [E ->]]. congruence.
  - discriminate.
  - destruct H as [a' [E _]]. discriminate.
  - discriminate.
  - destruct H as [a' [E _]]. discriminate.
Qed.

Lemma atoi_all : forall l, (forall z, In z l -> is_int z) -> rall atoi (map print_int l) = Ok l.
Proof.
  induction l as [|z l IH]; intros H; [reflexivity|]. cbn [map rall]. rewrite int_kept by (apply H; left; reflexivity).
  cbn [rbind]. rewrite IH by (intros y Y; apply H; right; exact Y). reflexivity.
Qed.

Lemma join_ints : forall l, tokenize (c_str (join (map print_int l))) = map print_int l.
Proof.
  intros l. rewrite clean_cstr.
  - apply tokenize_join. rewrite forallb_forall. intros s S. apply in_map_iff in S. destruct S as [z [<- _]]. apply print_int_word.
  - apply join_clean. intros s S. apply in_map_iff in S. destruct S as [z [<- _]]. apply print_int_clean.
Qed.
Lemma join_doubles : forall l, tokenize (c_str (join (map print_double l))) = map print_double l.
Proof.
  intros l. rewrite clean_cstr.
  - apply tokenize_join. rewrite forallb_forall. intros s S. apply in_map_iff in S. destruct S as [z [<- _]]. apply print_double_word.
  - apply join_clean. intros s S. apply in_map_iff in S. destruct S as [z [<- _]]. apply print_double_clean.
Qed.
Lemma tokenize_one : forall s, wordb s = true -> tokenize s = [s].
Proof. intros s H. apply (tokenize_join [s]). cbn. rewrite H. reflexivity. Qed.

Lemma read_elems : forall p, sorted_params p -> text_ok_params p -> rfold read_param (all_elems p) params_empty = Ok (back p).
Proof.
  intros p S T. unfold all_elems. rewrite rfold_app, rfold_map.
  assert (TY : forall ty, In ty ["int"; "double"; "string"; "IntVec"; "DoubleVec"; "StringVec"]%string -> no_nul ty).
  { intros ty I. apply plain_nonul. cbn in I. repeat (destruct I as [<-|I]; [reflexivity|]). destruct I. }
  assert (R1 : rfold (fun (s : params) (e : string * Z) => read_param s (param_elem (fst e) "int" (print_int (snd e)))) (p_int p) params_empty
    = Ok (mkParams (mapopt (@Some Z) (p_int p)) [] [] [] [] [])).
  { apply (fold_set (@Some Z) _ (fun m => mkParams m [] [] [] [] []) (fun e => no_nul (fst e) /\ is_int (snd e))).
    - intros m k z [K Z]. cbn [fst snd] in *. rewrite read_param_elem by (try exact K; apply TY; cbn; tauto).
      rewrite clean_cstr by apply print_int_clean. rewrite tokenize_one by apply print_int_word.
      cbn [String.eqb Ascii.eqb Bool.eqb]. rewrite int_kept by exact Z. reflexivity.
    - apply (S TInt).
    - intros [k z] I. cbn. destruct (T TInt k (VInt z)) as [A B]; [|split; [apply A | exact B]].
      cbn [do_get]. unfold getIntVal. rewrite (proj2 (get_in (p_int p) k z (S TInt)) I). reflexivity. }
  rewrite R1. cbn [rbind]. replace (mapopt (@Some Z) (p_int p)) with (p_int p) by (symmetry; apply mapopt_id; reflexivity).
  set (I0 := p_int p).
  assert (R2 : rfold (fun (s : params) (e : string * R) => read_param s (param_elem (fst e) "double" (print_double (snd e)))) (p_double p) (mkParams I0 [] [] [] [] [])
    = Ok (mkParams I0 (mapopt back_double (p_double p)) [] [] [] [])).
  { apply (fold_set back_double _ (fun m => mkParams I0 m [] [] [] []) (fun e => no_nul (fst e))).
    - intros m k x K. cbn [fst snd] in *. rewrite read_param_elem by (try exact K; apply TY; cbn; tauto).
      rewrite clean_cstr by apply print_double_clean. rewrite tokenize_one by apply print_double_word. reflexivity.
    - apply (S TDouble).
    - intros [k x] I. cbn. destruct (T TDouble k (VDouble x)) as [A B]; [|apply A].
      cbn [do_get]. unfold getDoubleVal. rewrite (proj2 (get_in (p_double p) k x (S TDouble)) I). reflexivity. }
  rewrite rfold_app, rfold_map. rewrite R2. cbn [rbind]. set (D0 := mapopt back_double (p_double p)).
  assert (R3 : rfold (fun (s : params) (e : string * string) => read_param s (param_elem (fst e) "string" (snd e))) (p_string p) (mkParams I0 D0 [] [] [] [])
    = Ok (mkParams I0 D0 (mapopt back_string (p_string p)) [] [] [])).
  { apply (fold_set back_string _ (fun m => mkParams I0 D0 m [] [] []) (fun e => no_nul (fst e))).
    - intros m k x K. cbn [fst snd] in *. rewrite read_param_elem by (try exact K; apply TY; cbn; tauto).
      unfold back_string. destruct (tokenize (c_str x)); reflexivity.
    - apply (S TString).
    - intros [k x] I. cbn. destruct (T TString k (VString x)) as [A B]; [|apply A].
      cbn [do_get]. unfold getStringVal. rewrite (proj2 (get_in (p_string p) k x (S TString)) I). reflexivity. }
  rewrite rfold_app, rfold_map. rewrite R3. cbn [rbind]. set (S0 := mapopt back_string (p_string p)).
  assert (R4 : rfold (fun (s : params) (e : string * list Z) => read_param s (param_elem (fst e) "IntVec" (join (map print_int (snd e))))) (p_intVec p) (mkParams I0 D0 S0 [] [] [])
    = Ok (mkParams I0 D0 S0 (mapopt back_ints (p_intVec p)) [] [])).
  { apply (fold_set back_ints _ (fun m => mkParams I0 D0 S0 m [] []) (fun e => no_nul (fst e) /\ forall z, In z (snd e) -> is_int z)).
    - intros m k l [K L]. cbn [fst snd] in *. rewrite read_param_elem by (try exact K; apply TY; cbn; tauto).
      rewrite join_ints. pose proof (atoi_all l L) as AA. destruct l as [|z l]; [reflexivity|].
      cbn [map] in *. cbn [String.eqb Ascii.eqb Bool.eqb]. rewrite AA. reflexivity.
    - apply (S TInts).
    - intros [k x] I. cbn. destruct (T TInts k (VInts x)) as [A B]; [|split; [apply A | exact B]].
      cbn [do_get]. unfold getIntVals. rewrite (proj2 (get_in (p_intVec p) k x (S TInts)) I). reflexivity. }
  rewrite rfold_app, rfold_map. rewrite R4. cbn [rbind]. set (V0 := mapopt back_ints (p_intVec p)).
  assert (R5 : rfold (fun (s : params) (e : string * list R) => read_param s (param_elem (fst e) "DoubleVec" (join (map print_double (snd e))))) (p_doubleVec p) (mkParams I0 D0 S0 V0 [] [])
    = Ok (mkParams I0 D0 S0 V0 (mapopt back_doubles (p_doubleVec p)) [])).
  { apply (fold_set back_doubles _ (fun m => mkParams I0 D0 S0 V0 m []) (fun e => no_nul (fst e))).
    - intros m k l K. cbn [fst snd] in *. rewrite read_param_elem by (try exact K; apply TY; cbn; tauto).
      rewrite join_doubles. destruct l as [|z l]; [reflexivity|]. unfold back_doubles.
      cbn [map]. cbn [String.eqb Ascii.eqb Bool.eqb]. rewrite map_map. reflexivity.
    - apply (S TDoubles).
    - intros [k x] I. cbn. destruct (T TDoubles k (VDoubles x)) as [A B]; [|apply A].
      cbn [do_get]. unfold getDoubleVals. rewrite (proj2 (get_in (p_doubleVec p) k x (S TDoubles)) I). reflexivity. }
  rewrite rfold_app, rfold_map. rewrite R5. cbn [rbind]. rewrite rfold_map. set (W0 := mapopt back_doubles (p_doubleVec p)).
  apply (fold_set back_strings _ (fun m => mkParams I0 D0 S0 V0 W0 m) (fun e => no_nul (fst e))).
  - intros m k l K. cbn [fst snd] in *. rewrite read_param_elem by (try exact K; apply TY; cbn; tauto).
    unfold back_strings. destruct (tokenize (c_str (join l))); reflexivity.
  - apply (S TStrings).
  - intros [k x] I. cbn. destruct (T TStrings k (VStrings x)) as [A B]; [|apply A].
    cbn [do_get]. unfold getStringVals. rewrite (proj2 (get_in (p_stringVec p) k x (S TStrings)) I). reflexivity.
Qed.

(** ** Which values come back *)
Lemma back_string_iff : forall s, back_string s = Some s <-> word s.
Proof.
  intros s. unfold back_string. split.
  - intros H. destruct (tokenize (c_str s)) as [|t ts] eqn:E; [discriminate|]. cbn in H. injection H as ->.
    pose proof (tokenize_words (c_str s)) as W. rewrite E in W. cbn in W. apply andb_true_iff in W. destruct W as [W _].
    apply wordb_spec in W. destruct W as [W1 W2]. split; [exact W1|]. split; [exact W2|].
    pose proof (tok_bytes nonul_char (c_str s) true []) as B. rewrite (proj1 (nonul_iff _) (c_str_nonul s)) in B.
    specialize (B eq_refl eq_refl). change (tok (c_str s) true []) with (tokenize (c_str s)) in B. rewrite E in B.
    cbn in B. apply andb_true_iff in B. apply nonul_iff. apply B.
  - intros [A [B C]]. rewrite c_str_id by exact C. rewrite tokenize_one; [reflexivity|]. apply wordb_spec. split; assumption.
Qed.

Lemma back_strings_iff : forall l, back_strings l = Some l <-> l <> [] /\ forall s, In s l -> word s.
Proof.
  intros l. unfold back_strings. split.
  - intros H. destruct (tokenize (c_str (join l))) as [|t ts] eqn:E; [discriminate|]. injection H as H.
    split; [rewrite <- H; discriminate|]. intros s I. rewrite <- H in I.
    pose proof (tokenize_words (c_str (join l))) as W. rewrite E in W. rewrite forallb_forall in W.
    pose proof (W s I) as WS. apply wordb_spec in WS. destruct WS as [W1 W2]. split; [exact W1|]. split; [exact W2|].
    pose proof (tok_bytes nonul_char (c_str (join l)) true []) as B. rewrite (proj1 (nonul_iff _) (c_str_nonul _)) in B.
    specialize (B eq_refl eq_refl). change (tok (c_str (join l)) true []) with (tokenize (c_str (join l))) in B. rewrite E in B.
    rewrite forallb_forall in B. apply nonul_iff. apply B. exact I.
  - intros [NE W]. rewrite c_str_id.
    + rewrite tokenize_join; [destruct l; [contradiction | reflexivity]|].
      rewrite forallb_forall. intros s S. apply wordb_spec. destruct (W s S) as [A [B _]]. split; assumption.
    + clear NE. apply nonul_iff. induction l as [|s l IH]; [reflexivity|]. destruct l as [|t l].
      * apply nonul_iff. apply W. left. reflexivity.
      * change (join (s :: t :: l)) with (s +++ String " " (join (t :: l))). rewrite allb_app.
        apply andb_true_iff. split; [apply nonul_iff; apply W; left; reflexivity|]. cbn [allb]. rewrite IH; [reflexivity|].
        intros v V. apply W. right. exact V.
Qed.

Lemma back_double_iff : forall x, back_double x = Some x <-> kept x.
Proof. intros x. unfold back_double, kept. split; intros H; [injection H as H; exact H | rewrite H; reflexivity]. Qed.

Lemma back_ints_iff : forall l, back_ints l = Some l <-> l <> [].
Proof. intros [|z l]; cbn; split; intros H; congruence. Qed.

Lemma map_id_iff : forall {A} (f : A -> A) l, map f l = l <-> forall x, In x l -> f x = x.
Proof.
  intros A f. induction l as [|x l IH]; cbn; split; intros H; try reflexivity.
  - intros y [].
  - injection H as H1 H2. intros y [<-|Y]; [exact H1|]. apply IH; assumption.
  - rewrite H by (left; reflexivity). f_equal. apply IH. intros y Y. apply H. right. exact Y.
Qed.

Lemma back_doubles_iff : forall l, back_doubles l = Some l <-> l <> [] /\ forall x, In x l -> kept x.
Proof.
  intros l. unfold back_doubles. destruct l as [|z l]; [split; [discriminate | intros [H _]; contradiction]|].
  split.
  - intros H. split; [discriminate|]. apply map_id_iff. congruence.
  - intros [_ H]. f_equal. apply (map_id_iff (fun x => atof (print_double x)) (z :: l)). exact H.
Qed.

Lemma back_same_iff : forall p, sorted_params p -> (back p = p <-> forall t k v, do_get t p k = Ok v -> survives v).
Proof.
  intros p S. split.
  - intros E. assert (H2 : mapopt back_double (p_double p) = p_double p) by (rewrite <- E at 2; reflexivity).
    assert (H3 : mapopt back_string (p_string p) = p_string p) by (rewrite <- E at 2; reflexivity).
    assert (H4 : mapopt back_ints (p_intVec p) = p_intVec p) by (rewrite <- E at 2; reflexivity).
    assert (H5 : mapopt back_doubles (p_doubleVec p) = p_doubleVec p) by (rewrite <- E at 2; reflexivity).
    assert (H6 : mapopt back_strings (p_stringVec p) = p_stringVec p) by (rewrite <- E at 2; reflexivity).
    pose proof (proj1 (mapopt_id _ _) H2) as M2. pose proof (proj1 (mapopt_id _ _) H3) as M3. pose proof (proj1 (mapopt_id _ _) H4) as M4.
    pose proof (proj1 (mapopt_id _ _) H5) as M5. pose proof (proj1 (mapopt_id _ _) H6) as M6.
    intros t k v G. destruct t; cbn [do_get] in G; apply rmap_ok in G; destruct G as [a [G ->]]; cbn [survives].
    + exact I.
    + apply back_double_iff. apply (M2 k). apply (get_in _ _ _ (S TDouble)). exact G.
    + apply back_string_iff. apply (M3 k). apply (get_in _ _ _ (S TString)). exact G.
    + apply back_ints_iff. apply (M4 k). apply (get_in _ _ _ (S TInts)). exact G.
    + apply back_doubles_iff. apply (M5 k). apply (get_in _ _ _ (S TDoubles)). exact G.
    + apply back_strings_iff. apply (M6 k). apply (get_in _ _ _ (S TStrings)). exact G.
  - intros H. unfold back.
    rewrite (proj2 (mapopt_id back_double (p_double p))).
    2:{ intros k v I. apply back_double_iff. apply (H TDouble k (VDouble v)). cbn [do_get]. unfold getDoubleVal. rewrite (proj2 (get_in _ _ _ (S TDouble)) I). reflexivity. }
    rewrite (proj2 (mapopt_id back_string (p_string p))).
    2:{ intros k v I. apply back_string_iff. apply (H TString k (VString v)). cbn [do_get]. unfold getStringVal. rewrite (proj2 (get_in _ _ _ (S TString)) I). reflexivity. }
    rewrite (proj2 (mapopt_id back_ints (p_intVec p))).
    2:{ intros k v I. apply back_ints_iff. apply (H TInts k (VInts v)). cbn [do_get]. unfold getIntVals. rewrite (proj2 (get_in _ _ _ (S TInts)) I). reflexivity. }
    rewrite (proj2 (mapopt_id back_doubles (p_doubleVec p))).
    2:{ intros k v I. apply back_doubles_iff. apply (H TDoubles k (VDoubles v)). cbn [do_get]. unfold getDoubleVals. rewrite (proj2 (get_in _ _ _ (S TDoubles)) I). reflexivity. }
    rewrite (proj2 (mapopt_id back_strings (p_stringVec p))).
    2:{ intros k v I. apply back_strings_iff. apply (H TStrings k (VStrings v)). cbn [do_get]. unfold getStringVals. rewrite (proj2 (get_in _ _ _ (S TStrings)) I). reflexivity. }
    destruct p; reflexivity.
Qed.

(** ** Through the file *)
Lemma param_elem_writable : forall k ty v, clean k -> clean ty -> charref_free v -> writable (param_elem k ty v).
Proof.
  intros k ty v K T V. rewrite param_elem_eq by (apply K || apply T).
  rewrite <- (attrs_of_ok [("name", k); ("type", ty); ("value", c_str v)]%string).
  - apply elem_writable; [reflexivity | | intros x [] | exact I].
    split; [reflexivity|]. split; [reflexivity|]. intros w [<-|[<-|[<-|[]]]]; [exact K | exact T|]. split; [apply c_str_nonul | apply charref_cstr; exact V].
  - split; [reflexivity|]. split; [reflexivity|]. intros w [<-|[<-|[<-|[]]]]; [exact K | exact T|]. split; [apply c_str_nonul | apply charref_cstr; exact V].
Qed.

Lemma all_elems_in : forall p x, sorted_params p -> text_ok_params p -> In x (all_elems p) ->
  writable x /\ is_elem x = true /\ Value x = "parameter"%string.
Proof.
  intros p x S T I. assert (G : exists k ty v, x = param_elem k ty v /\ clean k /\ clean ty /\ charref_free v).
  { unfold all_elems in I. rewrite !in_app_iff in I. rewrite !in_map_iff in I.
    assert (TY : forall ty, plainb ty = true -> clean ty) by apply plain_clean.
    destruct I as [I|[I|[I|[I|[I|I]]]]]; destruct I as [[k v] [<- I]]; cbn [fst snd]; do 3 eexists; (split; [reflexivity|]).
    - destruct (T TInt k (VInt v)) as [A B]; [cbn [do_get]; unfold getIntVal; rewrite (proj2 (get_in _ _ _ (S TInt)) I); reflexivity|].
      split; [exact A|]. split; [apply TY; reflexivity | apply print_int_clean].
    - destruct (T TDouble k (VDouble v)) as [A B]; [cbn [do_get]; unfold getDoubleVal; rewrite (proj2 (get_in _ _ _ (S TDouble)) I); reflexivity|].
      split; [exact A|]. split; [apply TY; reflexivity | apply print_double_clean].
    - destruct (T TString k (VString v)) as [A B]; [cbn [do_get]; unfold getStringVal; rewrite (proj2 (get_in _ _ _ (S TString)) I); reflexivity|].
      split; [exact A|]. split; [apply TY; reflexivity | exact B].
    - destruct (T TInts k (VInts v)) as [A B]; [cbn [do_get]; unfold getIntVals; rewrite (proj2 (get_in _ _ _ (S TInts)) I); reflexivity|].
      split; [exact A|]. split; [apply TY; reflexivity|]. apply charref_join. intros s Q. apply in_map_iff in Q. destruct Q as [z [<- _]]. apply print_int_clean.
    - destruct (T TDoubles k (VDoubles v)) as [A B]; [cbn [do_get]; unfold getDoubleVals; rewrite (proj2 (get_in _ _ _ (S TDoubles)) I); reflexivity|].
      split; [exact A|]. split; [apply TY; reflexivity|]. apply charref_join. intros s Q. apply in_map_iff in Q. destruct Q as [z [<- _]]. apply print_double_clean.
    - destruct (T TStrings k (VStrings v)) as [A B]; [cbn [do_get]; unfold getStringVals; rewrite (proj2 (get_in _ _ _ (S TStrings)) I); reflexivity|].
      split; [exact A|]. split; [apply TY; reflexivity|]. apply charref_join. exact B. }
  destruct G as [k [ty [v [-> [K [Q V]]]]]]. split; [apply param_elem_writable; assumption|]. split; reflexivity.
Qed.

Lemma save_load : forall p, sorted_params p -> text_ok_params p ->
  exists text, save_params p = Ok text /\ load_params text = Ok (back p).
Proof.
  intros p S T. exists (print_doc [XElem "detector" [] (all_elems p)]). split.
  - unfold save_params, parameters_toXML. rewrite to_xml_elems by exact S. reflexivity.
  - unfold load_params. rewrite document_kept.
    + unfold parameters_fromXML, params_from_xml, IterateChildren. cbn [children].
      rewrite filter_all; [apply read_elems; assumption|]. intros x X. destruct (all_elems_in p x S T X) as [_ [_ V]]. rewrite V. reflexivity.
    + discriminate.
    + intros x [<-|[]]. split; [|discriminate]. apply (elem_writable "detector" []); [reflexivity | | |].
      * split; [reflexivity|]. split; [reflexivity|]. intros v [].
      * intros x X. apply (all_elems_in p x S T X).
      * apply elements_no_text. intros x X. apply (all_elems_in p x S T X).
Qed.

Lemma after_sorted : forall h, sorted_params (after h).
Proof. intros h t. apply keys_exact_sorted. Qed.

(** ** C32 *)
Lemma params_survive : forall h, let p := after h in
  (forall t k v, do_get t p k = Ok v -> no_nul k /\ charref_free k /\ text_ok v) ->
  exists text, save_params p = Ok text /\
    (load_params text = Ok p <-> forall t k v, do_get t p k = Ok v -> survives v).
Proof.
  intros h p T.
  assert (T2 : text_ok_params p).
  { intros t k v G. destruct (T t k v G) as [A [B C]]. split; [split; assumption | exact C]. }
  destruct (save_load p (after_sorted h) T2) as [text [S L]]. exists text. split; [exact S|].
  rewrite L. rewrite <- (back_same_iff p (after_sorted h)). split; intros H; [injection H as H; exact H | rewrite H; reflexivity].
Qed.

Lemma mapopt_find : forall {A B} (f : A -> option B) m k, StronglySorted slt (sm_keys m) ->
  sm_find k (mapopt f m) = match sm_find k m with Some v => f v | None => None end.
Proof.
  intros A B f. induction m as [|[n v] m IH]; intros k S; [reflexivity|].
  cbn in S. apply StronglySorted_inv in S. destruct S as [S1 S2]. cbn. destruct (String.eqb_spec k n) as [->|N].
  - destruct (f v) as [w|]; [cbn; rewrite String.eqb_refl; reflexivity|].
    apply sm_find_none_iff. intros I. apply mapopt_keys in I. rewrite Forall_forall in S2. apply (slt_irrefl n). apply S2. exact I.
  - destruct (f v) as [w|]; [cbn; destruct (String.eqb_spec k n); [contradiction|]|]; apply IH; exact S1.
Qed.

(** each value on its own: it comes back whatever the other parameters are *)
Lemma value_survives : forall h, let p := after h in
  (forall t k v, do_get t p k = Ok v -> no_nul k /\ charref_free k /\ text_ok v) ->
  exists text q, save_params p = Ok text /\ load_params text = Ok q /\
    (forall t k v, do_get t p k = Ok v -> (do_get t q k = Ok v <-> survives v)) /\
    (forall t k v, do_get t q k = Ok v -> exists w, do_get t p k = Ok w).
Proof.
  intros h p T.
  assert (T2 : text_ok_params p).
  { intros t k v G. destruct (T t k v G) as [A [B C]]. split; [split; assumption | exact C]. }
  destruct (save_load p (after_sorted h) T2) as [text [S L]]. exists text, (back p). split; [exact S|]. split; [exact L|].
  assert (SS := after_sorted h). fold p in SS.
  assert (Q : forall {A} (f : A -> option A) (m : smap A) (mk : A -> pval) k v, (forall a b, mk a = mk b -> a = b) -> StronglySorted slt (sm_keys m) ->
    lookup_or_throw k m = Ok v -> (rmap mk (lookup_or_throw k (mapopt f m)) = Ok (mk v) <-> f v = Some v)).
  { intros A f m mk k v INJ SM G. unfold lookup_or_throw in *. rewrite mapopt_find by exact SM.
    destruct (sm_find k m) as [w|]; [|discriminate]. injection G as ->. destruct (f v) as [u|]; cbn; split; intros H; try discriminate.
    - f_equal. apply INJ. congruence.
    - congruence. }
  assert (Q2 : forall {A} (f : A -> option A) (m : smap A) (mk : A -> pval) k v, StronglySorted slt (sm_keys m) ->
    rmap mk (lookup_or_throw k (mapopt f m)) = Ok v -> exists w, rmap mk (lookup_or_throw k m) = Ok w).
  { intros A f m mk k v SM G. unfold lookup_or_throw in *. rewrite mapopt_find in G by exact SM.
    destruct (sm_find k m) as [w|]; [cbn; eauto | discriminate]. }
  split.
  - intros t k v G. destruct t; cbn [do_get] in *; apply rmap_ok in G; destruct G as [a [G ->]]; cbn [survives].
    + split; [auto|]. intros _. unfold getIntVal in *. cbn [back p_int]. rewrite G. reflexivity.
    + rewrite <- back_double_iff. apply (Q R back_double (p_double p) VDouble); [congruence | apply (SS TDouble) | exact G].
    + rewrite <- back_string_iff. apply (Q string back_string (p_string p) VString); [congruence | apply (SS TString) | exact G].
    + rewrite <- back_ints_iff. apply (Q _ back_ints (p_intVec p) VInts); [congruence | apply (SS TInts) | exact G].
    + rewrite <- back_doubles_iff. apply (Q _ back_doubles (p_doubleVec p) VDoubles); [congruence | apply (SS TDoubles) | exact G].
    + rewrite <- back_strings_iff. apply (Q _ back_strings (p_stringVec p) VStrings); [congruence | apply (SS TStrings) | exact G].
  - intros t k v G. destruct t; cbn [do_get] in *.
    + eauto.
    + eapply (Q2 R back_double (p_double p)); [apply (SS TDouble) | exact G].
    + eapply (Q2 _ back_string (p_string p)); [apply (SS TString) | exact G].
    + eapply (Q2 _ back_ints (p_intVec p)); [apply (SS TInts) | exact G].
    + eapply (Q2 _ back_doubles (p_doubleVec p)); [apply (SS TDoubles) | exact G].
    + eapply (Q2 _ back_strings (p_stringVec p)); [apply (SS TStrings) | exact G].
Qed.

(** doubles that do not come back exactly come back nearly *)
Lemma doubles_nearly : forall h, let p := after h in
  (forall t k v, do_get t p k = Ok v -> no_nul k /\ charref_free k /\ text_ok v) ->
  exists text q, save_params p = Ok text /\ load_params text = Ok q /\
    forall k x, getDoubleVal p k = Ok x -> normal x ->
    exists y, getDoubleVal q k = Ok y /\ (Rabs (y - x) <= 5001 / 10000000000000 * Rabs x)%R.
Proof.
  intros h p T.
  assert (T2 : text_ok_params p).
  { intros t k v G. destruct (T t k v G) as [A [B C]]. split; [split; assumption | exact C]. }
  destruct (save_load p (after_sorted h) T2) as [text [S L]]. exists text, (back p). split; [exact S|]. split; [exact L|].
  intros k x G N. exists (atof (print_double x)). split; [|apply double_close; exact N].
  unfold getDoubleVal in *. cbn [back p_double]. unfold lookup_or_throw in *. rewrite mapopt_find by apply (after_sorted h TDouble).
  fold p. destruct (sm_find k (p_double p)); [|discriminate]. injection G as ->. reflexivity.
Qed.
