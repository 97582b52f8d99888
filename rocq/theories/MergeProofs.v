(** Proofs about merging. *)
From Coq Require Import ZArith List String Ascii Bool Lia PeanoNat.
From Verif Require Import Base XmlModel XmlSpec XmlProofs HxModel HxProofs MergeModel MergeSpec.
Import ListNotations.
Open Scope list_scope.

(** ** labels *)
Lemma label_eq : forall n, label n = (getNodeName n, hasAttribute n).
Proof. intros [v a ch|s|s|s|v e s]; cbn; try reflexivity. destruct (Attribute "name" a); reflexivity. Qed.
Lemma same_true : forall a b, same a b = true <-> label a = label b.
Proof. intros a b. unfold same. destruct (label_dec (label a) (label b)); split; intros H; try discriminate; auto. Qed.
Lemma same_false : forall a b, same a b = false <-> label a <> label b.
Proof. intros a b. unfold same. destruct (label_dec (label a) (label b)); split; intros H; try discriminate; auto. contradiction. Qed.
Lemma matches_same : forall n x, matches n x = same n x.
Proof.
  intros n x. unfold matches. destruct (same n x) eqn:E.
  - apply same_true in E. rewrite !label_eq in E. injection E as E1 E2. rewrite E1, E2.
    rewrite String.eqb_refl, Bool.eqb_reflx. reflexivity.
  - apply same_false in E. rewrite !label_eq in E. destruct (String.eqb_spec (getNodeName x) (getNodeName n)); cbn; [|reflexivity].
    destruct (Bool.eqb (hasAttribute n) (hasAttribute x)) eqn:F; [|reflexivity].
    apply Bool.eqb_prop in F. exfalso. apply E. congruence.
Qed.
Lemma countNodes_eq : forall x l, countNodes x l = Z.of_nat (count x l).
Proof. intros x l. unfold countNodes, count, alike. do 2 f_equal. apply filter_ext. intros y. apply matches_same. Qed.
Lemma count_app : forall x a b, count x (a ++ b) = (count x a + count x b)%nat.
Proof. intros. unfold count, alike. rewrite filter_app, app_length. reflexivity. Qed.
Lemma same_ext : forall x y, label x = label y -> forall z, same x z = same y z.
Proof. intros x y E z. unfold same. rewrite E. reflexivity. Qed.
Lemma alike_ext : forall x y l, label x = label y -> alike x l = alike y l.
Proof. intros. unfold alike. apply filter_ext. apply same_ext; assumption. Qed.
Lemma count_ext : forall x y l, label x = label y -> count x l = count y l.
Proof. intros. unfold count. erewrite alike_ext by eassumption. reflexivity. Qed.
Lemma count_zero : forall x l, count x l = 0%nat <-> forall y, In y l -> label y <> label x.
Proof.
  intros x l. unfold count, alike. split.
  - intros H y Hy E. apply length_zero_iff_nil in H.
    assert (I : In y (filter (same x) l)) by (apply filter_In; split; [assumption|]; apply same_true; auto). rewrite H in I. exact I.
  - intros H. rewrite filter_none; [reflexivity|]. intros y Hy. apply same_false. intros E. apply (H y Hy). auto.
Qed.
Lemma count_same_cons : forall x y l, label y = label x -> count x (y :: l) = S (count x l).
Proof. intros x y l E. unfold count, alike. cbn [filter]. replace (same x y) with true by (symmetry; apply same_true; auto). reflexivity. Qed.
Lemma count_other_cons : forall x y l, label y <> label x -> count x (y :: l) = count x l.
Proof. intros x y l E. unfold count, alike. cbn [filter]. replace (same x y) with false by (symmetry; apply same_false; auto). reflexivity. Qed.

(** ** copies *)
Lemma map_id_in : forall {A} (f : A -> A) l, (forall x, In x l -> f x = x) -> map f l = l.
Proof. intros A f l. induction l as [|x t IH]; intros H; [reflexivity|]. cbn. rewrite H by (left; reflexivity). f_equal. apply IH. intros; apply H; right; assumption. Qed.
Lemma clone_sound : forall n, sound n -> clone_node n = n.
Proof.
  induction n as [n a ch IH|s|s|s|v e s] using xnode_induct; intros So; inversion So; subst; cbn; try (rewrite c_str_id by assumption; reflexivity); [|reflexivity].
  rewrite c_str_id by assumption. rewrite attrs_of_id by assumption. f_equal. apply map_id_in. intros x Hx.
  rewrite Forall_forall in IH. apply IH; auto.
Qed.
Lemma clone_doc_sound : forall l, (forall n, In n l -> sound n) -> clone_doc l = l.
Proof. intros l H. apply map_id_in. intros x Hx. apply clone_sound. auto. Qed.
Lemma writable_sound : forall n, writable n -> sound n.
Proof.
  induction n as [n a ch IH|s|s|s|v e s] using xnode_induct; intros W; inversion W; subst; constructor; auto.
  - apply name_nonul; assumption.
  - intros k v I. destruct (H3 k v I) as [A [B _]]. split; [apply name_nonul|]; assumption.
  - intros c Hc. rewrite Forall_forall in IH. apply IH; auto.
Qed.

(** ** one turn of the loop *)
Definition lstate := (list xnode * string * Z)%type.
Definition turn (rec : list xnode) (st : lstate) (x : xnode) : result lstate :=
  let '(dch, lastName, occ) := st in
  if (((1 <? countNodes x rec) || (1 <? countNodes x dch)) && negb (countNodes x dch =? countNodes x rec))%Z%bool
  then Throw (EGear "ERROR. Counter")
  else
    let occ := if String.eqb lastName (getNodeName x) then (occ + 1)%Z else 1%Z in
    match child_at x dch occ with
    | None => Ok (dch ++ [clone_node x], getNodeName x, occ)
    | Some (i, d) =>
        let d := mergeAttribute x d in
        if hasAttribute x then
          match children x with
          | [] => UB
          | c :: _ => if is_text c then Ok (set_nth i d dch, getNodeName x, occ)
                      else rbind (mergeNode x (children d)) (fun ch' => Ok (set_nth i (with_children d ch') dch, getNodeName x, occ))
          end
        else Ok (set_nth i d dch, getNodeName x, occ)
    end.
Lemma mergeNode_turns : forall n a ch dch, mergeNode (XElem n a ch) dch = rmap (fun st => fst (fst st)) (rfold (turn ch) ch (dch, ""%string, 0%Z)).
Proof.
  intros n a ch dch. cbn [mergeNode].
  match goal with |- ?F ch dch _ _ = _ => set (loop := F) end.
  enough (G : forall l dch s o, loop l dch s o = rmap (fun st => fst (fst st)) (rfold (turn ch) l (dch, s, o))) by apply G.
  induction l as [|x t IH]; intros d s o; [reflexivity|].
  cbn [rfold]. unfold turn at 1. unfold loop; fold loop. cbv zeta.
  match goal with |- context[if ?b then Throw _ else _] => destruct b end; [reflexivity|].
  destruct (child_at x d _) as [[i dd]|]; [|apply IH].
  destruct (hasAttribute x); [|apply IH].
  destruct (children x) as [|c cs]; [reflexivity|].
  destruct (is_text c); [apply IH|].
  destruct (mergeNode x (children (mergeAttribute x dd))) as [ch'|e|]; [apply IH|reflexivity|reflexivity].
Qed.
Lemma mergeNode_other : forall n dch, is_elem n = false -> mergeNode n dch = Ok dch.
Proof. intros [n a ch|s|s|s|v e s] dch H; try reflexivity. discriminate. Qed.

(** ** attributes *)
Lemma c_str_idem : forall s, c_str (c_str s) = c_str s.
Proof. induction s as [|c t IH]; [reflexivity|]. cbn. destruct (byte c =? 0)%Z eqn:E; [reflexivity|]. cbn. rewrite E, IH. reflexivity. Qed.
Lemma find_attr_none_iff : forall k l, find_attr k l = None <-> ~ In k (map fst l).
Proof.
  intros k l. split; [|apply find_attr_notin]. induction l as [|[n v] l IH]; intros H; cbn in *; [tauto|].
  destruct (String.eqb_spec n k); [discriminate|]. intros [E|I]; [contradiction|]. apply IH; assumption.
Qed.
Lemma Attribute_none : forall k l, Attribute k l = None <-> ~ In k (map fst l).
Proof. intros k l. unfold Attribute. rewrite <- find_attr_none_iff. destruct (find_attr k l); cbn; split; intros H; congruence. Qed.
Lemma set_absent : forall k v l, ~ In (c_str k) (map fst l) -> SetAttribute (c_str k) v l = l ++ [(c_str k, c_str v)].
Proof. intros k v l H. unfold SetAttribute. rewrite c_str_idem. rewrite find_attr_notin by exact H. reflexivity. Qed.
Lemma merge_attrs_keeps : forall b a, exists extra, merge_attrs b a = a ++ extra /\ forall k, In k (map fst extra) -> ~ In k (map fst a).
Proof.
  unfold merge_attrs. induction b as [|[k v] b IH]; intros a; cbn [fold_left fst snd].
  - exists []. split; [rewrite app_nil_r; reflexivity|]. intros k [].
  - destruct (Attribute (c_str k) a) eqn:E; [apply IH|]. apply Attribute_none in E. rewrite set_absent by exact E.
    destruct (IH (a ++ [(c_str k, c_str (c_str v))])) as [extra [E1 E2]]. rewrite E1. eexists. split; [rewrite <- app_assoc; reflexivity|].
    intros k' [<-|I]; [exact E|]. intros I2. apply (E2 k' I). rewrite map_app. apply in_or_app. left. exact I2.
Qed.
Lemma merge_attrs_joined : forall b a, NoDup (map fst b) -> (forall k v, In (k, v) b -> no_nul k /\ no_nul v) -> merge_attrs b a = joined_attrs b a.
Proof.
  unfold merge_attrs, joined_attrs. induction b as [|[k v] b IH]; intros a ND NN; cbn [fold_left fst snd filter]; [rewrite app_nil_r; reflexivity|].
  inversion ND as [|? ? NI ND2]; subst. destruct (NN k v (or_introl eq_refl)) as [Nk Nv].
  rewrite (c_str_id k Nk), (c_str_id v Nv).
  destruct (in_dec String.string_dec k (map fst a)) as [I|I].
  - destruct (Attribute k a) eqn:E; [|apply Attribute_none in E; contradiction]. apply IH; [exact ND2|]. intros; apply NN; right; assumption.
  - rewrite (proj2 (Attribute_none k a) I). rewrite set_new by assumption. rewrite IH; [|exact ND2|intros; apply NN; right; assumption].
    rewrite <- app_assoc. f_equal. cbn [app]. f_equal. apply filter_ext_in. intros [k' v'] I'. cbn [fst].
    assert (N : k' <> k) by (intros ->; apply NI; apply (in_map fst) in I'; exact I').
    rewrite map_app. cbn [map fst].
    destruct (in_dec String.string_dec k' (map fst a ++ [k])) as [J|J]; destruct (in_dec String.string_dec k' (map fst a)) as [J'|J']; try reflexivity.
    + apply in_app_or in J. destruct J as [J|[J|[]]]; congruence.
    + destruct J. apply in_or_app. left. exact J'.
Qed.

(** ** the dominant file *)
Lemma Forall2_refl : forall {A} (P : A -> A -> Prop) l, (forall x, P x x) -> Forall2 P l l.
Proof. intros A P l H. induction l; constructor; auto. Qed.
Lemma keeps_trans : forall a b c, keeps a b -> keeps b c -> keeps a c.
Proof.
  induction a as [n a ch IH|s|s|s|v e s] using xnode_induct; intros b c K1 K2; inversion K1; subst; try exact K2.
  inversion K2; subst; [exact K1|].
  match goal with H : Forall2 keeps (ch' ++ added) ?x |- _ => apply Forall2_app_inv_l in H; destruct H as [l1 [l2 [F1 [F2 E]]]]; subst x end.
  rewrite <- !app_assoc. constructor.
  - intros k I. rewrite map_app in I. apply in_app_or in I. destruct I as [I|I]; [auto|].
    intros I2. match goal with H : forall k, _ -> ~ In k (map fst (a ++ extra)) |- _ => apply (H k I) end.
    rewrite map_app. apply in_or_app. left. exact I2.
  - rename H4 into F0. clear - IH F0 F1. revert l1 F1. induction F0 as [|x y t u K F IHF]; intros l1 F1; inversion F1; subst; constructor.
    + inversion IH; subst. eauto.
    + apply IHF; [inversion IH; assumption|assumption].
Qed.
Lemma extends_refl : forall l, extends l l.
Proof. intros l. exists l, []. split; [rewrite app_nil_r; reflexivity|]. apply Forall2_refl. constructor. Qed.
Lemma Forall2_keeps_trans : forall a b c, Forall2 keeps a b -> Forall2 keeps b c -> Forall2 keeps a c.
Proof. intros a b c H. revert c. induction H; intros c H2; inversion H2; subst; constructor; eauto using keeps_trans. Qed.
Lemma extends_trans : forall a b c, extends a b -> extends b c -> extends a c.
Proof.
  intros a b c [k1 [a1 [E1 F1]]] [k2 [a2 [E2 F2]]]. subst. apply Forall2_app_inv_l in F2. destruct F2 as [l1 [l2 [G1 [G2 E]]]]. subst.
  exists l1, (l2 ++ a2). split; [rewrite app_assoc; reflexivity|]. eapply Forall2_keeps_trans; eassumption.
Qed.
Lemma extends_append : forall l x, extends l (l ++ x).
Proof. intros l x. exists l, x. split; [reflexivity|]. apply Forall2_refl. constructor. Qed.
Lemma child_at_nth : forall x l o i d, child_at x l o = Some (i, d) -> nth_error l i = Some d /\ label d = label x.
Proof.
  intros x l. induction l as [|y t IH]; intros o i d H; [discriminate|]. cbn in H. rewrite matches_same in H.
  destruct (same x y) eqn:E.
  - destruct (o =? 1)%Z.
    + injection H as <- <-. split; [reflexivity|]. symmetry. apply same_true. exact E.
    + destruct (child_at x t (o - 1)) as [[j e]|] eqn:F; [|discriminate]. injection H as <- <-. cbn. eapply IH. exact F.
  - destruct (child_at x t o) as [[j e]|] eqn:F; [|discriminate]. injection H as <- <-. cbn. eapply IH. exact F.
Qed.
Lemma extends_set : forall l i d d', nth_error l i = Some d -> keeps d d' -> extends l (set_nth i d' l).
Proof.
  intros l i d d' N K. exists (set_nth i d' l), []. split; [rewrite app_nil_r; reflexivity|].
  revert i N. induction l as [|y t IH]; intros i N; [destruct i; discriminate|]. destruct i as [|i]; cbn in N |- *.
  - injection N as ->. constructor; [exact K|]. apply Forall2_refl. constructor.
  - constructor; [constructor|]. apply IH. exact N.
Qed.
Lemma mergeAttribute_keeps : forall x d, keeps d (mergeAttribute x d).
Proof.
  intros x d. destruct x; try apply K_same. destruct d as [n' a' ch'| | | |]; try apply K_same.
  cbn. destruct (merge_attrs_keeps attrs a') as [e [-> H]]. rewrite <- (app_nil_r ch') at 2. constructor; [exact H|]. apply Forall2_refl. constructor.
Qed.
Lemma with_children_keeps : forall d ch, extends (children d) ch -> keeps d (with_children d ch).
Proof.
  intros d ch H. destruct d as [n a c| | | |]; try apply K_same. cbn in *. destruct H as [k [b [-> F]]].
  rewrite <- (app_nil_r a) at 2. constructor; [intros k' []|exact F].
Qed.
Lemma rfold_inv : forall {A S} (P : S -> Prop) (f : S -> A -> result S) l s s', P s -> (forall s x s', In x l -> P s -> f s x = Ok s' -> P s') ->
  rfold f l s = Ok s' -> P s'.
Proof.
  intros A S0 P f l. induction l as [|x t IH]; intros s s' Ps H R; cbn in R; [injection R as <-; exact Ps|].
  destruct (f s x) as [s1|e|] eqn:E; cbn in R; try discriminate. eapply IH; [|intros s2 x2 s3 I; apply H; right; exact I|exact R].
  eapply H; [left; reflexivity|exact Ps|exact E].
Qed.
Lemma mergeNode_keeps : forall n dch out, mergeNode n dch = Ok out -> extends dch out.
Proof.
  induction n as [n a ch IH|s|s|s|v e s] using xnode_induct; intros dch out H; try (injection H as <-; apply extends_refl).
  rewrite mergeNode_turns in H. destruct (rfold (turn ch) ch (dch, ""%string, 0%Z)) as [st|e|] eqn:R; cbn in H; try discriminate.
  injection H as <-. rewrite Forall_forall in IH.
  apply (rfold_inv (fun st => extends dch (fst (fst st))) (turn ch) ch (dch, ""%string, 0%Z)); [apply extends_refl| |exact R].
  clear st R. intros [[d l] o] x s' Ix Hd T. cbn [fst] in Hd |- *. unfold turn in T.
  match type of T with context[if ?b then Throw _ else _] => destruct b end; [discriminate|]. cbv zeta in T.
  destruct (child_at x d _) as [[i dd]|] eqn:CA.
  - apply child_at_nth in CA. destruct CA as [N _].
    assert (E1 : extends d (set_nth i (mergeAttribute x dd) d)) by (eapply extends_set; [exact N|apply mergeAttribute_keeps]).
    destruct (hasAttribute x); [|injection T as <-; cbn [fst]; eapply extends_trans; eassumption].
    destruct (children x) as [|c cs]; [discriminate|].
    destruct (is_text c); [injection T as <-; cbn [fst]; eapply extends_trans; eassumption|].
    destruct (mergeNode x (children (mergeAttribute x dd))) as [ch'|e|] eqn:M; cbn [rbind] in T; try discriminate.
    injection T as <-. cbn [fst]. apply (IH x Ix) in M. eapply extends_trans; [exact Hd|].
    eapply extends_set; [exact N|]. eapply keeps_trans; [apply mergeAttribute_keeps|]. apply with_children_keeps. exact M.
  - injection T as <-. cbn [fst]. eapply extends_trans; [exact Hd|]. apply extends_append.
Qed.

(** ** the recessive file *)
Lemma Attribute_app : forall k a b, ~ In k (map fst b) -> Attribute k (a ++ b) = Attribute k a.
Proof.
  intros k a b H. unfold Attribute. f_equal. induction a as [|[n v] a IH]; cbn; [apply find_attr_notin; exact H|].
  destruct (String.eqb n k); [reflexivity|exact IH].
Qed.
Lemma merge_attrs_in : forall k b a, In k (map fst (merge_attrs b a)) -> In k (map fst a) \/ exists v, In v b /\ c_str (fst v) = k.
Proof.
  intros k. unfold merge_attrs. induction b as [|[n v] b IH]; intros a H; cbn [fold_left fst snd] in H; [left; exact H|].
  destruct (IH _ H) as [I|[w [I E]]]; [|right; exists w; split; [right; exact I|exact E]].
  destruct (Attribute (c_str n) a) eqn:F; [left; exact I|]. apply Attribute_none in F. rewrite set_absent in I by exact F.
  rewrite map_app in I. apply in_app_or in I. destruct I as [I|[I|[]]]; [left; exact I|]. right. exists (n, v). split; [left; reflexivity|exact I].
Qed.
Lemma sound_name : forall n a ch, sound (XElem n a ch) -> forall kv, In kv a -> c_str (fst kv) = fst kv.
Proof. intros n a ch So [k v] I. inversion So; subst. cbn. apply c_str_id. eapply (proj1 (H4 k v I)). Qed.
Lemma mergeAttribute_label : forall x d, sound x -> label d = label x -> label (mergeAttribute x d) = label d.
Proof.
  intros x d So E. destruct x as [nx ax cx| | | |]; try reflexivity. destruct d as [n a ch| | | |]; try reflexivity.
  cbn [mergeAttribute]. destruct (merge_attrs_keeps ax a) as [extra [M N]]. pose proof (merge_attrs_in "name" ax a) as I. rewrite M in I.
  cbn [label]. rewrite M.
  destruct (Attribute "name" a) as [s|] eqn:F.
  - rewrite Attribute_app; [rewrite F; reflexivity|]. intros J. apply N in J. apply J.
    destruct (in_dec String.string_dec "name"%string (map fst a)) as [i|i]; [exact i|]. apply Attribute_none in i. congruence.
  - assert (G : Attribute "name" (a ++ extra) = None); [|rewrite G; reflexivity].
    apply Attribute_none. intros J. destruct (I J) as [J1|[w [J1 J2]]]; [apply Attribute_none in F; contradiction|].
    rewrite (sound_name _ _ _ So w J1) in J2. cbn [label] in E. rewrite F in E.
    destruct (Attribute "name" ax) eqn:G; [discriminate|]. apply Attribute_none in G. apply G. rewrite <- J2. apply in_map. exact J1.
Qed.
Lemma with_children_label : forall d ch, label (with_children d ch) = label d.
Proof. intros [n a c| | | |] ch; reflexivity. Qed.
Lemma set_nth_labels : forall l i d d', nth_error l i = Some d -> label d' = label d -> map label (set_nth i d' l) = map label l.
Proof.
  induction l as [|y t IH]; intros i d d' N E; [destruct i; discriminate|]. destruct i as [|i]; cbn in *.
  - injection N as ->. congruence.
  - f_equal. eapply IH; eassumption.
Qed.
Lemma count_labels : forall x a b, map label a = map label b -> count x a = count x b.
Proof.
  intros x a. induction a as [|y a IH]; intros b E; destruct b as [|z b]; try discriminate; [reflexivity|]. cbn in E. injection E as E1 E2.
  destruct (label_dec (label y) (label x)) as [F|F].
  - rewrite !count_same_cons by congruence. f_equal. auto.
  - rewrite !count_other_cons by congruence. auto.
Qed.
Lemma in_set_nth : forall l i d d' x, nth_error l i = Some d -> In x l -> x <> d -> In x (set_nth i d' l).
Proof.
  induction l as [|y t IH]; intros i d d' x N I E; [destruct I|]. destruct i as [|i]; cbn in *.
  - injection N as ->. destruct I as [I|I]; [congruence|]. right. exact I.
  - destruct I as [I|I]; [left; exact I|]. right. eapply IH; eassumption.
Qed.
(** a turn changes one node with the label of [y], or appends [y] *)
Lemma turn_cases : forall rec d l o y d' l' o', sound y -> turn rec (d, l, o) y = Ok (d', l', o') ->
  (d' = d ++ [y] \/ exists i e e', nth_error d i = Some e /\ label e = label y /\ label e' = label y /\ d' = set_nth i e' d).
Proof.
  intros rec d l o y d' l' o' So T. unfold turn in T.
  match type of T with context[if ?b then Throw _ else _] => destruct b end; [discriminate|]. cbv zeta in T.
  destruct (child_at y d _) as [[i e]|] eqn:CA.
  - apply child_at_nth in CA. destruct CA as [N L]. right. pose proof (mergeAttribute_label y e So L) as L2.
    destruct (hasAttribute y); [|injection T as <- <- <-; exists i, e, (mergeAttribute y e); repeat split; try assumption; congruence].
    destruct (children y) as [|c cs]; [discriminate|].
    destruct (is_text c); [injection T as <- <- <-; exists i, e, (mergeAttribute y e); repeat split; try assumption; congruence|].
    destruct (mergeNode y _) as [ch'|x|]; cbn [rbind] in T; try discriminate.
    injection T as <- <- <-. exists i, e, (with_children (mergeAttribute y e) ch'). repeat split; try assumption. rewrite with_children_label. congruence.
  - injection T as <- <- <-. left. rewrite clone_sound by exact So. reflexivity.
Qed.
Lemma turn_count_other : forall rec d l o y d' l' o' x, sound y -> turn rec (d, l, o) y = Ok (d', l', o') -> label y <> label x ->
  count x d' = count x d /\ (In x d -> In x d').
Proof.
  intros rec d l o y d' l' o' x So T N. destruct (turn_cases _ _ _ _ _ _ _ _ So T) as [->|[i [e [e' [Ni [L [L' ->]]]]]]].
  - rewrite count_app, count_other_cons by exact N. split; [unfold count at 2; cbn; lia|]. intros I. apply in_or_app. left. exact I.
  - split; [apply count_labels; eapply set_nth_labels; [exact Ni|congruence]|]. intros I. eapply in_set_nth; [exact Ni|exact I|]. intros ->. congruence.
Qed.
Lemma turn_counts : forall rec d l o y st, turn rec (d, l, o) y = Ok st -> (count y rec <= 1 /\ count y d <= 1)%nat \/ count y rec = count y d.
Proof.
  intros rec d l o y st T. unfold turn in T. rewrite !countNodes_eq in T.
  match type of T with context[if ?b then Throw _ else _] => destruct b eqn:B end; [discriminate|].
  apply andb_false_iff in B. rewrite orb_false_iff in B. rewrite !Z.ltb_ge, negb_false_iff, Z.eqb_eq in B. lia.
Qed.
Lemma first_alike : forall x l, In x l -> exists a y b, l = a ++ y :: b /\ label y = label x /\ (forall z, In z a -> label z <> label x) /\
  (count x l = 1%nat -> y = x).
Proof.
  intros x l. induction l as [|z t IH]; intros I; [destruct I|]. destruct (label_dec (label z) (label x)) as [E|E].
  - exists [], z, t. split; [reflexivity|]. split; [exact E|]. split; [intros w []|]. intros C. rewrite count_same_cons in C by exact E.
    injection C as C. destruct I as [I|I]; [exact I|]. exfalso. apply count_zero with (y := x) in C; [|exact I]. congruence.
  - destruct I as [I|I]; [subst; congruence|]. destruct (IH I) as [a [y [b [-> [L [N F]]]]]]. exists (z :: a), y, b. split; [reflexivity|]. split; [exact L|].
    split; [intros w [<-|J]; auto|]. intros C. apply F. rewrite count_other_cons in C by exact E. exact C.
Qed.
Lemma rfold_split : forall {A S} (f : S -> A -> result S) a y b s s', rfold f (a ++ y :: b) s = Ok s' ->
  exists s1 s2, rfold f a s = Ok s1 /\ f s1 y = Ok s2 /\ rfold f b s2 = Ok s'.
Proof.
  intros A S0 f a y b s s' H. rewrite rfold_app in H. destruct (rfold f a s) as [s1|e|] eqn:E1; cbn in H; try discriminate.
  destruct (f s1 y) as [s2|e|] eqn:E2; cbn in H; try discriminate. eauto.
Qed.
Lemma rfold_count_other : forall rec l x s s', (forall y, In y l -> sound y /\ label y <> label x) -> rfold (turn rec) l s = Ok s' ->
  count x (fst (fst s')) = count x (fst (fst s)) /\ (In x (fst (fst s)) -> In x (fst (fst s'))).
Proof.
  intros rec l x s s' H R.
  apply (rfold_inv (fun st => count x (fst (fst st)) = count x (fst (fst s)) /\ (In x (fst (fst s)) -> In x (fst (fst st)))) (turn rec) l s s'); [auto| |exact R].
  intros [[d1 l1] o1] y [[d2 l2] o2] I [C J] T. destruct (H y I) as [So N]. cbn [fst] in *.
  destruct (turn_count_other _ _ _ _ _ _ _ _ x So T N) as [C2 J2]. split; [congruence|auto].
Qed.
Lemma sound_children : forall n, sound n -> forall c, In c (children n) -> sound c.
Proof. intros n So c I. inversion So; subst; cbn in I; try destruct I; auto. Qed.
(** a merge that succeeds found repeated labels equally often, and took over what was new *)
Lemma mergeNode_counts : forall n dch out, sound n -> mergeNode n dch = Ok out -> same_counts (children n) dch.
Proof.
  intros n dch out So H x Ix. destruct n as [n a ch| | | |]; try destruct Ix. cbn [children] in *.
  rewrite mergeNode_turns in H. destruct (rfold (turn ch) ch (dch, ""%string, 0%Z)) as [st|e|] eqn:R; cbn in H; try discriminate.
  destruct (first_alike x ch Ix) as [p [y [q [E [L [N _]]]]]]. rewrite E in R at 2. destruct (rfold_split _ _ _ _ _ _ R) as [s1 [s2 [R1 [T R2]]]].
  destruct (rfold_count_other ch p x _ _ (fun y I => conj (sound_children _ So y ltac:(cbn [children]; rewrite E; apply in_or_app; left; exact I)) (N y I)) R1) as [C _].
  destruct s1 as [[d1 l1] o1]. cbn [fst] in C. apply turn_counts in T. rewrite !(count_ext y x) in T by exact L. rewrite C in T. exact T.
Qed.
Lemma mergeNode_new : forall n dch out x, sound n -> mergeNode n dch = Ok out -> In x (children n) -> count x dch = 0%nat -> In x out.
Proof.
  intros n dch out x So H Ix Z0. pose proof (mergeNode_counts n dch out So H x Ix) as SC.
  destruct n as [n a ch| | | |]; try destruct Ix. cbn [children] in *.
  assert (C1 : count x ch = 1%nat).
  { assert (count x ch <> 0)%nat; [|lia]. intros C. apply count_zero with (y := x) in C; [congruence|exact Ix]. }
  rewrite mergeNode_turns in H. destruct (rfold (turn ch) ch (dch, ""%string, 0%Z)) as [st|e|] eqn:R; cbn in H; try discriminate. injection H as <-.
  destruct (first_alike x ch Ix) as [p [y [q [E [L [N F]]]]]]. specialize (F C1). subst y.
  pose proof R as R'. rewrite E in R' at 2. destruct (rfold_split _ _ _ _ _ _ R') as [s1 [s2 [R1 [T R2]]]].
  assert (Sx : forall y, In y ch -> sound y) by (apply (sound_children _ So)).
  destruct (rfold_count_other ch p x _ _ (fun y I => conj (Sx y ltac:(rewrite E; apply in_or_app; left; exact I)) (N y I)) R1) as [C _].
  destruct s1 as [[d1 l1] o1], s2 as [[d2 l2] o2]. cbn [fst] in C.
  assert (I2 : In x d2).
  { destruct (turn_cases _ _ _ _ _ _ _ _ (Sx x Ix) T) as [->|[i [e [e' [Ni [Le _]]]]]]; [apply in_or_app; right; left; reflexivity|].
    exfalso. assert (C0 : count x d1 = 0%nat) by congruence. apply count_zero with (y := e) in C0; [congruence|]. eapply nth_error_In. exact Ni. }
  apply (rfold_count_other ch q x _ _) in R2; [apply (proj2 R2); exact I2|].
  intros y I. split; [apply Sx; rewrite E; apply in_or_app; right; right; exact I|].
  intros Ly. rewrite E, count_app, count_same_cons in C1 by reflexivity.
  assert (count x q = 0)%nat by lia. apply count_zero with (y := y) in H; [congruence|exact I].
Qed.

(** ** the exact result *)
Lemma child_at_none : forall x l o, count x l = 0%nat -> child_at x l o = None.
Proof.
  intros x l. induction l as [|y t IH]; intros o C; [reflexivity|]. cbn. rewrite matches_same. destruct (same x y) eqn:E.
  - apply same_true in E. rewrite count_same_cons in C by auto. discriminate.
  - apply same_false in E. rewrite count_other_cons in C by auto. rewrite IH by exact C. reflexivity.
Qed.
Lemma child_at_found : forall x l i d, nth_error l i = Some d -> label d = label x -> child_at x l (Z.of_nat (count x (firstn i l)) + 1) = Some (i, d).
Proof.
  intros x l. induction l as [|y t IH]; intros i d N L; [destruct i; discriminate|]. destruct i as [|i]; cbn in N.
  - injection N as ->. cbn. rewrite matches_same. rewrite (proj2 (same_true x d)) by auto. reflexivity.
  - cbn [firstn child_at]. rewrite matches_same. destruct (same x y) eqn:E.
    + apply same_true in E. rewrite count_same_cons by auto.
      replace (Z.of_nat (S (count x (firstn i t))) + 1 =? 1)%Z with false by (symmetry; apply Z.eqb_neq; lia).
      replace (Z.of_nat (S (count x (firstn i t))) + 1 - 1)%Z with (Z.of_nat (count x (firstn i t)) + 1)%Z by lia.
      rewrite (IH i d N L). reflexivity.
    + apply same_false in E. rewrite count_other_cons by auto. rewrite (IH i d N L). reflexivity.
Qed.
Lemma nth_alike : forall x l k, (k < count x l)%nat -> exists i d, nth_error l i = Some d /\ label d = label x /\ count x (firstn i l) = k.
Proof.
  intros x l. induction l as [|y t IH]; intros k C; [unfold count in C; cbn in C; lia|].
  destruct (label_dec (label y) (label x)) as [E|E].
  - rewrite count_same_cons in C by exact E. destruct k as [|k]; [exists 0%nat, y; repeat split; assumption|].
    destruct (IH k) as [i [d [N [L K]]]]; [lia|]. exists (S i), d. split; [exact N|]. split; [exact L|]. cbn [firstn]. rewrite count_same_cons by exact E. lia.
  - rewrite count_other_cons in C by exact E. destruct (IH k C) as [i [d [N [L K]]]]. exists (S i), d. split; [exact N|]. split; [exact L|].
    cbn [firstn]. rewrite count_other_cons by exact E. exact K.
Qed.
Lemma count_firstn_lt : forall x l i j d, nth_error l i = Some d -> label d = label x -> (i < j)%nat -> (count x (firstn i l) < count x (firstn j l))%nat.
Proof.
  intros x l. induction l as [|y t IH]; intros i j d N L H; [destruct i; discriminate|].
  destruct j as [|j]; [lia|]. destruct i as [|i]; cbn in N.
  - injection N as ->. cbn [firstn]. rewrite count_same_cons by exact L. unfold count at 1. cbn. lia.
  - cbn [firstn]. assert ((count x (firstn i t) < count x (firstn j t))%nat) by (eapply IH; [exact N|exact L|lia]).
    destruct (label_dec (label y) (label x)) as [E|E]; [rewrite !count_same_cons by exact E|rewrite !count_other_cons by exact E]; lia.
Qed.
Lemma alike_app : forall x a b, alike x (a ++ b) = alike x a ++ alike x b.
Proof. intros. unfold alike. apply filter_app. Qed.
Lemma alike_one : forall d x, label x = label d -> alike d [x] = [x].
Proof. intros d x E. unfold alike. cbn. rewrite (proj2 (same_true d x)) by auto. reflexivity. Qed.
Lemma alike_none : forall d x, label x <> label d -> alike d [x] = [].
Proof. intros d x E. unfold alike. cbn. rewrite (proj2 (same_false d x)) by auto. reflexivity. Qed.
Lemma nth_set_nth : forall l i j x, nth_error (set_nth i x l) j = if Nat.eqb i j then (match nth_error l i with Some _ => Some x | None => None end) else nth_error l j.
Proof.
  induction l as [|y t IH]; intros i j x; [destruct i, j; cbn; try reflexivity; destruct (Nat.eqb i j); reflexivity|].
  destruct i as [|i], j as [|j]; cbn; try reflexivity. apply IH.
Qed.
Lemma set_nth_app : forall l m i x, (i < List.length l)%nat -> set_nth i x (l ++ m) = set_nth i x l ++ m.
Proof. induction l as [|y t IH]; intros m i x H; [cbn in H; lia|]. destruct i as [|i]; cbn; [reflexivity|]. f_equal. apply IH. cbn in H. lia. Qed.
Lemma firstn_labels : forall a b i, map label a = map label b -> map label (firstn i a) = map label (firstn i b).
Proof. intros. rewrite <- !firstn_map. congruence. Qed.
Lemma nth_labels : forall a b i d, map label a = map label b -> nth_error b i = Some d -> exists o, nth_error a i = Some o /\ label o = label d.
Proof.
  intros a b i d E N. assert (M : nth_error (map label a) i = Some (label d)) by (rewrite E; apply map_nth_error; exact N).
  rewrite nth_error_map in M. destruct (nth_error a i) as [o|]; [|discriminate]. injection M as M. exists o. auto.
Qed.

Lemma children_mergeAttribute : forall x d, children (mergeAttribute x d) = children d.
Proof. intros x d. destruct x; try reflexivity. destruct d; reflexivity. Qed.
Lemma named_has : forall x, named x <-> hasAttribute x = true.
Proof. intros x. unfold named. rewrite label_eq. cbn. reflexivity. Qed.
Lemma has_elem : forall x, hasAttribute x = true -> HxModel.is_elem x = true.
Proof. intros [n a ch| | | |] H; try discriminate; reflexivity. Qed.

Section Loop.
Variables (rec dom : list xnode).
Hypothesis Srec : forall x, In x rec -> sound x.
Hypothesis Ord : orderly rec.
Hypothesis Cnt : same_counts rec dom.
Hypothesis Kids : forall i d x, nth_error dom i = Some d -> counterpart rec dom i d = Some x -> named x -> children x <> [].
Hypothesis Down : forall i d x, nth_error dom i = Some d -> counterpart rec dom i d = Some x -> goes_down x ->
  exists out, mergeNode x (children d) = Ok out /\ merged (children x) (children d) out.

Definition at_occ (p : list xnode) (last : string) (occ : Z) : Prop :=
  (p = [] /\ last = ""%string /\ occ = 0%Z) \/ exists p' y, p = p' ++ [y] /\ last = fst (label y) /\ occ = Z.of_nat (count y p).
Definition at_dch (p dch : list xnode) : Prop :=
  exists pre, dch = pre ++ only_in p dom /\ map label pre = map label dom /\
    forall i d, nth_error dom i = Some d -> exists o, nth_error pre i = Some o /\
      match counterpart p dom i d with Some x => combined x d o | None => o = d end.

Lemma occ_next : forall p x q last occ, rec = p ++ x :: q -> at_occ p last occ ->
  (if String.eqb last (getNodeName x) then (occ + 1)%Z else 1%Z) = (Z.of_nat (count x p) + 1)%Z.
Proof.
  intros p x q last occ E [[-> [-> ->]]|[p' [y [-> [-> ->]]]]].
  - cbn [count alike filter List.length]. destruct (String.eqb ""%string (getNodeName x)); reflexivity.
  - rewrite label_eq. cbn [fst]. rewrite <- app_assoc in E. cbn [app] in E. destruct Ord as [O1 O2].
    destruct (String.eqb_spec (getNodeName y) (getNodeName x)) as [F|F].
    + rewrite (count_ext y x); [reflexivity|]. apply (O2 p' y x q E). rewrite !label_eq. exact F.
    + assert (NL : label y <> label x) by (rewrite !label_eq; congruence).
      replace (count x (p' ++ [y])) with 0%nat; [reflexivity|]. symmetry. apply count_zero. intros z I Lz.
      apply in_app_or in I. destruct I as [I|[->|[]]]; [|contradiction].
      apply in_split in I. destruct I as [a [b ->]].
      assert (E2 : rec = a ++ z :: (b ++ [y]) ++ x :: q) by (rewrite E, <- !app_assoc; reflexivity).
      apply NL. rewrite <- Lz. apply (O1 a z (b ++ [y]) x q E2 Lz). apply in_or_app. right. left. reflexivity.
Qed.

Lemma combine_one : forall x d i, In x rec -> nth_error dom i = Some d -> counterpart rec dom i d = Some x -> label d = label x ->
  exists o, combined x d o /\ label o = label d /\
    forall L dch nm occ, (if hasAttribute x then
          match children x with
          | [] => UB
          | c :: _ => if is_text c then Ok (set_nth L (mergeAttribute x d) dch, nm, occ)
                      else rbind (mergeNode x (children (mergeAttribute x d))) (fun ch' => Ok (set_nth L (with_children (mergeAttribute x d) ch') dch, nm, occ))
          end
        else Ok (set_nth L (mergeAttribute x d) dch, nm, occ)) = Ok ((set_nth L o dch, nm, occ) : lstate).
Proof.
  intros x d i Ix N CP L. pose proof (Srec x Ix) as So. pose proof (mergeAttribute_label x d So L) as ML.
  destruct (HxModel.is_elem x && HxModel.is_elem d) eqn:IE.
  - apply andb_true_iff in IE. destruct IE as [E1 E2]. destruct x as [nx ax cx| | | |]; try discriminate. destruct d as [n a ch| | | |]; try discriminate.
    assert (AJ : merge_attrs ax a = joined_attrs ax a) by (inversion So; apply merge_attrs_joined; assumption).
    cbn [mergeAttribute] in *. rewrite AJ in *. cbn [children with_children].
    destruct (hasAttribute (XElem nx ax cx)) eqn:HA.
    + assert (Nm : named (XElem nx ax cx)) by (apply named_has; exact HA).
      pose proof (Kids i _ _ N CP Nm) as K. cbn [children] in K. destruct cx as [|c cs]; [contradiction|].
      destruct (is_text c) eqn:IT.
      * exists (XElem n (joined_attrs ax a) ch). split; [|split; [exact ML|intros; reflexivity]]. constructor.
        intros [_ G]. cbn in G. rewrite (G c cs eq_refl) in IT. discriminate.
      * assert (GD : goes_down (XElem nx ax (c :: cs))) by (split; [exact Nm|]; cbn; intros c' t' E; injection E as <- <-; exact IT).
        destruct (Down i _ _ N CP GD) as [out [M1 M2]]. cbn [children] in M1, M2.
        exists (XElem n (joined_attrs ax a) out). split; [constructor; assumption|]. split; [exact ML|]. intros. rewrite M1. reflexivity.
    + exists (XElem n (joined_attrs ax a) ch). split; [|split; [exact ML|intros; reflexivity]]. constructor.
      intros [Nm _]. apply named_has in Nm. congruence.
  - assert (HA : hasAttribute x = false).
    { destruct (hasAttribute x) eqn:HA; [|reflexivity]. pose proof (has_elem x HA) as E1.
      assert (HD : hasAttribute d = true) by (rewrite !label_eq in L; congruence). rewrite E1, (has_elem d HD) in IE. discriminate. }
    assert (MA : mergeAttribute x d = d) by (destruct x; try reflexivity; destruct d; try reflexivity; discriminate).
    exists d. split; [constructor; exact IE|]. split; [reflexivity|]. intros. rewrite HA, MA. reflexivity.
Qed.

Lemma only_in_snoc : forall p x, only_in (p ++ [x]) dom = only_in p dom ++ (if Nat.eqb (count x dom) 0 then [x] else []).
Proof. intros p x. unfold only_in. rewrite filter_app. cbn. destruct (Nat.eqb (count x dom) 0); reflexivity. Qed.
Lemma count_only_in : forall p x, count x (only_in p dom) = if Nat.eqb (count x dom) 0 then count x p else 0%nat.
Proof.
  intros p x. induction p as [|y p IH]; [destruct (Nat.eqb (count x dom) 0); reflexivity|].
  unfold only_in in *. cbn [filter]. destruct (label_dec (label y) (label x)) as [E|E].
  - rewrite (count_ext y x dom E). destruct (Nat.eqb (count x dom) 0) eqn:Z0; [rewrite !count_same_cons by exact E; rewrite IH; reflexivity|exact IH].
  - rewrite (count_other_cons x y p E). destruct (Nat.eqb (count y dom) 0); [rewrite count_other_cons by exact E|]; exact IH.
Qed.

Lemma turn_good : forall p x q dch last occ, rec = p ++ x :: q -> at_occ p last occ -> at_dch p dch ->
  exists dch' last' occ', turn rec (dch, last, occ) x = Ok (dch', last', occ') /\ at_occ (p ++ [x]) last' occ' /\ at_dch (p ++ [x]) dch'.
Proof.
  intros p x q dch last occ E AO [pre [-> [LP HP]]].
  assert (Ix : In x rec) by (rewrite E; apply in_or_app; right; left; reflexivity).
  assert (CR : (count x p + 1 <= count x rec)%nat) by (rewrite E, count_app, count_same_cons by reflexivity; lia).
  pose proof (Cnt x Ix) as SC. pose proof (occ_next p x q last occ E AO) as ON.
  assert (CD : count x (pre ++ only_in p dom) = count x dom).
  { rewrite count_app, (count_labels x pre dom LP), count_only_in. destruct (Nat.eqb_spec (count x dom) 0); lia. }
  assert (AO' : at_occ (p ++ [x]) (getNodeName x) (Z.of_nat (count x p) + 1)).
  { right. exists p, x. split; [reflexivity|]. split; [rewrite label_eq; reflexivity|].
    rewrite count_app, count_same_cons by reflexivity. unfold count at 3. cbn. lia. }
  unfold turn. rewrite !countNodes_eq, CD.
  match goal with |- context[if ?b then Throw _ else _] => replace b with false end.
  2:{ symmetry. apply andb_false_iff. rewrite orb_false_iff, !Z.ltb_ge, negb_false_iff, Z.eqb_eq. lia. }
  rewrite ON. cbv zeta.
  destruct (Nat.eqb_spec (count x dom) 0) as [Z0|Z0].
  - rewrite child_at_none by congruence. rewrite clone_sound by auto. eexists _, _, _. split; [reflexivity|]. split; [exact AO'|].
    exists pre. split; [rewrite only_in_snoc, Z0; cbn; rewrite <- app_assoc; reflexivity|]. split; [exact LP|].
    intros i d N. destruct (HP i d N) as [o [No Ho]]. exists o. split; [exact No|].
    replace (counterpart (p ++ [x]) dom i d) with (counterpart p dom i d); [exact Ho|].
    unfold counterpart. rewrite alike_app, alike_none, app_nil_r; [reflexivity|].
    intros L. apply count_zero with (y := d) in Z0; [congruence|]. eapply nth_error_In; exact N.
  - destruct (nth_alike x dom (count x p)) as [i [d [N [L K]]]]; [lia|].
    destruct (HP i d N) as [o [No Ho]].
    assert (CPp : counterpart p dom i d = None).
    { unfold counterpart. rewrite (count_ext d x _ L), K, (alike_ext d x _ L). apply nth_error_None. fold (count x p). unfold count. lia. }
    rewrite CPp in Ho. subst o.
    assert (CP : counterpart (p ++ [x]) dom i d = Some x).
    { unfold counterpart. rewrite (count_ext d x _ L), K, (alike_ext d x _ L), alike_app, alike_one by reflexivity.
      rewrite nth_error_app2 by (unfold count; lia). unfold count. rewrite Nat.sub_diag. reflexivity. }
    assert (CPr : counterpart rec dom i d = Some x).
    { unfold counterpart in *. rewrite E. replace (p ++ x :: q) with ((p ++ [x]) ++ q) by (rewrite <- app_assoc; reflexivity).
      rewrite alike_app. rewrite nth_error_app1; [exact CP|]. apply nth_error_Some. congruence. }
    assert (CA : child_at x (pre ++ only_in p dom) (Z.of_nat (count x p) + 1) = Some (i, d)).
    { assert (Li : (i < List.length pre)%nat) by (apply nth_error_Some; congruence).
      rewrite <- K, <- (count_labels x (firstn i pre) (firstn i dom)) by (apply firstn_labels; exact LP).
      replace (firstn i pre) with (firstn i (pre ++ only_in p dom)) by (rewrite firstn_app; replace (i - List.length pre)%nat with 0%nat by lia; cbn; apply app_nil_r).
      apply child_at_found; [|exact L]. rewrite nth_error_app1 by exact Li. exact No. }
    rewrite CA. destruct (combine_one x d i Ix N CPr L) as [o [Hc [Lo St]]]. rewrite St.
    eexists _, _, _. split; [reflexivity|]. split; [exact AO'|].
    exists (set_nth i o pre). split.
    { rewrite set_nth_app by (apply nth_error_Some; congruence). rewrite only_in_snoc.
      replace (Nat.eqb (count x dom) 0) with false by (symmetry; apply Nat.eqb_neq; exact Z0). rewrite app_nil_r. reflexivity. }
    split; [rewrite (set_nth_labels pre i d o No Lo); exact LP|].
    intros j e Ne. rewrite nth_set_nth. destruct (Nat.eqb_spec i j) as [<-|NE].
    + rewrite No. exists o. split; [reflexivity|]. assert (e = d) by congruence. subst e. rewrite CP. exact Hc.
    + destruct (HP j e Ne) as [o' [No' Ho']]. exists o'. split; [exact No'|].
      replace (counterpart (p ++ [x]) dom j e) with (counterpart p dom j e); [exact Ho'|].
      unfold counterpart. rewrite alike_app. destruct (label_dec (label x) (label e)) as [Lx|Lx]; [|rewrite alike_none, app_nil_r by exact Lx; reflexivity].
      rewrite (alike_one e x Lx). symmetry in Lx. rewrite (alike_ext e x _ Lx), (count_ext e x _ Lx).
      assert (count x (firstn j dom) <> count x p)%nat.
      { rewrite <- K. destruct (Nat.lt_total i j) as [Hl|[Hl|Hl]]; [|contradiction|].
        - pose proof (count_firstn_lt x dom i j d N L Hl). lia.
        - pose proof (count_firstn_lt x dom j i e Ne Lx Hl). lia. }
      destruct (Nat.lt_ge_cases (count x (firstn j dom)) (count x p)) as [Hl|Hl].
      * rewrite nth_error_app1 by exact Hl. reflexivity.
      * rewrite (proj2 (nth_error_None (alike x p) _)) by exact Hl. symmetry. apply nth_error_None. rewrite app_length. fold (count x p). cbn. lia.
Qed.

Lemma loop_good : forall q p dch last occ, rec = p ++ q -> at_occ p last occ -> at_dch p dch ->
  exists dch' last' occ', rfold (turn rec) q (dch, last, occ) = Ok (dch', last', occ') /\ at_dch rec dch'.
Proof.
  induction q as [|x q IH]; intros p dch last occ E AO AD.
  - rewrite app_nil_r in E. subst p. exists dch, last, occ. split; [reflexivity|exact AD].
  - destruct (turn_good p x q dch last occ E AO AD) as [d1 [l1 [o1 [T [AO1 AD1]]]]]. cbn [rfold]. rewrite T. cbn [rbind].
    apply (IH (p ++ [x])); [rewrite <- app_assoc; exact E|exact AO1|exact AD1].
Qed.
End Loop.

Lemma mergeNode_merges : forall n dch, sound n -> mergeable (children n) dch -> exists out, mergeNode n dch = Ok out /\ merged (children n) dch out.
Proof.
  induction n as [n a ch IH|s|s|s|v e s] using xnode_induct; intros dch So M.
  2-5: exists dch; split; [reflexivity|]; cbn [children]; rewrite <- (app_nil_r dch) at 2;
       apply (Merged [] dch dch); [reflexivity| |intros i d N _; exact N];
       intros i d x o _ CP; unfold counterpart in CP; cbn in CP; destruct (count d (firstn i dch)); discriminate.
  rewrite mergeNode_turns. cbn [children] in *. inversion M as [? ? Or Co Ki Do]; subst. rewrite Forall_forall in IH.
  assert (Sc : forall x, In x ch -> sound x) by (apply (sound_children _ So)).
  assert (Down : forall i d x, nth_error dch i = Some d -> counterpart ch dch i d = Some x -> goes_down x ->
    exists out, mergeNode x (children d) = Ok out /\ merged (children x) (children d) out).
  { intros i d x N CP G. assert (Ix : In x ch) by (unfold counterpart in CP; apply nth_error_In in CP; unfold alike in CP; apply filter_In in CP; tauto).
    apply IH; [exact Ix|auto|]. eapply Do; eassumption. }
  assert (A0 : at_dch dch [] dch).
  { exists dch. split; [unfold only_in; cbn; rewrite app_nil_r; reflexivity|]. split; [reflexivity|]. intros i d N. exists d. split; [exact N|].
    unfold counterpart. cbn. destruct (count d (firstn i dch)); reflexivity. }
  destruct (loop_good ch dch Sc Or Co Ki Down ch [] dch ""%string 0%Z eq_refl (or_introl (conj eq_refl (conj eq_refl eq_refl))) A0) as [d' [l' [o' [R [pre [E [LP HP]]]]]]].
  rewrite R. cbn. exists d'. split; [reflexivity|]. rewrite E. constructor.
  - rewrite <- (map_length label pre), LP, map_length. reflexivity.
  - intros i d x o N CP No. destruct (HP i d N) as [o2 [No2 H2]]. rewrite CP in H2. congruence.
  - intros i d N CP. destruct (HP i d N) as [o2 [No2 H2]]. rewrite CP in H2. congruence.
Qed.
