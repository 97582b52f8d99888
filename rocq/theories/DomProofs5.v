(** Linked nodes: the forest is determined; going through it; what lies outside the rules. *)
From Coq Require Import ZArith List String Bool Lia Permutation.
From Verif Require Import DomModel DomSpec DomProofs DomProofs2 DomProofs3 DomProofs4.
Import ListNotations.
Open Scope Z_scope.

(** ** the forest is determined *)
Section Unique.
Variables (m : Z -> option cell) (W W' : list (Z * cell)).
Hypotheses (R : repr m W) (R' : repr m W').
Lemma uniq_cell a c c' : In (a, c) W -> In (a, c') W' -> c = c'.
Proof. intros I I'. apply R in I. apply R' in I'. congruence. Qed.
Lemma uniq_list l : Forall (fun t => forall t' par prv nxt par' prv' nxt', incl (ct par prv nxt t) W -> incl (ct par' prv' nxt' t') W' -> addr t = addr t' -> t = t') l ->
  forall l' par prv par' prv', incl (cl par prv l None) W -> incl (cl par' prv' l' None) W' -> hd_of l None = hd_of l' None -> l = l'.
Proof.
  intros F. induction F as [|t l Ht _ IH]; intros l' par prv par' prv' I I' E; destruct l' as [|t' l']; cbn in E; try congruence. injection E as E.
  cbn [cl] in I, I'.
  assert (I1 : incl (ct par prv (hd_of l None) t) W) by (intros x Hx; apply I; apply in_or_app; now left).
  assert (I1' : incl (ct par' prv' (hd_of l' None) t') W') by (intros x Hx; apply I'; apply in_or_app; now left).
  assert (ET : t = t') by (eapply Ht; eassumption). subst t'. f_equal.
  apply (IH l' par (Some (addr t)) par' (Some (addr t))); [intros x Hx; apply I; apply in_or_app; now right|intros x Hx; apply I'; apply in_or_app; now right|].
  assert (C : cell_of par prv (hd_of l None) t = cell_of par' prv' (hd_of l' None) t).
  { apply (uniq_cell (addr t)); [apply I1|apply I1']; rewrite ct_eq'; now left. }
  apply (f_equal c_next) in C. exact C.
Qed.
Lemma uniq_tree : forall t t' par prv nxt par' prv' nxt', incl (ct par prv nxt t) W -> incl (ct par' prv' nxt' t') W' -> addr t = addr t' -> t = t'.
Proof.
  induction t as [a d ch IH] using tree_ind'. intros [a' d' ch'] par prv nxt par' prv' nxt' I I' E. cbn in E. subst a'. rewrite ct_eq in I, I'.
  pose proof (uniq_cell a _ _ (I _ (or_introl eq_refl)) (I' _ (or_introl eq_refl))) as C.
  assert (ED : d = d') by (apply (f_equal c_data) in C; exact C). subst d'. f_equal.
  apply (uniq_list ch IH ch' (Some a) None (Some a) None); [intros x Hx; apply I; now right|intros x Hx; apply I'; now right|]. apply (f_equal c_first) in C. exact C.
Qed.
End Unique.
Lemma root_incl F t : In t F -> incl (ct None None None t) (cf F).
Proof. intros I x Hx. unfold cf. apply in_flat_map. eauto. Qed.
Lemma roots_same h F F' : links h F -> links h F' -> forall t, In t F -> In t F'.
Proof.
  intros H H' t I. apply links_repr in H, H'.
  assert (C : In (addr t, cell_of None None None t) (cf F')) by (apply H'; apply H; apply (root_incl F t I); rewrite ct_eq'; now left).
  apply cf_char in C. destruct C as [(t' & J & E & _)|(p & d & ch & i & x & _ & _ & _ & C)]; [|discriminate].
  assert (t = t') as -> by (eapply (uniq_tree (cells h) (cf F) (cf F') H H'); [apply root_incl; exact I|apply root_incl; exact J|exact E]). exact J.
Qed.
Lemma nodup_forest F : NoDup (all F) -> NoDup F.
Proof.
  induction F as [|t F IH]; intros N; [constructor|]. change (all (t :: F)) with (all ([] ++ t :: F)) in N. constructor.
  - intros I. destruct (nodup_mid [] t F (addr t) N) as [_ M]; [destruct t; now left|]. apply M. apply in_all. exists t. split; [exact I|]. destruct t; now left.
  - apply IH. rewrite all_mid in N. cbn in N. now apply nodup_r in N.
Qed.
Lemma forest_unique h F F' : links h F -> links h F' -> Permutation F F'.
Proof.
  intros H H'. apply NoDup_Permutation; [apply nodup_forest, H|apply nodup_forest, H'|]. intros t. split; apply (roots_same h); assumption.
Qed.

(** ** going through the children *)
Section Walk.
Variables (h : heap) (F : forest) (p : Z) (d : data) (ch : list tree).
Hypotheses (L : links h F) (I : node_of F (Node p d ch)).
Lemma kid_get i x : nth_error ch i = Some x -> exists c, get h (addr x) = DOk c /\ c_parent c = Some p /\ c_data c = dat x /\
  c_next c = option_map addr (nth_error ch (S i)) /\ c_prev c = match i with O => None | S j => option_map addr (nth_error ch j) end.
Proof.
  intros E. destruct L as (_ & _ & _ & C). destruct (C _ _ _ I) as [_ K]. destruct (K i x E) as (c & E1 & E2 & E3 & E4). exists c. unfold get. rewrite E1.
  repeat split; auto. destruct x as [a d' ch']. destruct (C a d' ch' (node_child _ _ _ _ _ I (nth_error_In _ _ E))) as [(c' & E5 & E6 & _) _]. cbn [addr dat] in *. congruence.
Qed.
Lemma par_get : exists c, get h p = DOk c /\ c_first c = option_map addr (nth_error ch 0) /\ c_last c = last_addr ch.
Proof. destruct L as (_ & _ & _ & C). destruct (C _ _ _ I) as [(c & E1 & _ & E2 & E3) _]. exists c. unfold get. rewrite E1. auto. Qed.
Lemma visits_det : forall from l, visits h p from l -> forall l', visits h p from l' -> l = l'.
Proof.
  induction 1 as [from E|from a l E _ IH]; intros l' V; inversion V; subst; try congruence. assert (a0 = a) by congruence. subst. f_equal. now apply IH.
Qed.
Lemma visits_at : forall m i from, (List.length ch - i = m)%nat -> IterateChildren h p from = DOk (option_map addr (nth_error ch i)) ->
  visits h p from (map addr (skipn i ch)).
Proof.
  induction m as [|m IH]; intros i from M E.
  - rewrite skipn_all2 by lia. constructor. rewrite E. assert (X : nth_error ch i = None) by (apply nth_error_None; lia). now rewrite X.
  - destruct (nth_error ch i) as [x|] eqn:X; [|apply nth_error_None in X; lia]. cbn in E.
    assert (SK : skipn i ch = x :: skipn (S i) ch).
    { clear -X. revert i X. induction ch as [|y l IH]; intros [|i] X; cbn in X; try discriminate; [now injection X as ->|]. cbn [skipn]. rewrite (IH i X). reflexivity. }
    rewrite SK. cbn [map]. apply visits_next; [exact E|]. apply IH; [lia|]. cbn [IterateChildren]. destruct (kid_get i x X) as (c & G & C1 & _ & C2 & _). rewrite G. cbn [dbind].
    rewrite C1, is_ptr_refl. now rewrite C2.
Qed.
Lemma visits_all : visits h p None (map addr ch).
Proof.
  apply (visits_at (List.length ch) 0 None); [lia|]. cbn. destruct par_get as (c & G & E & _). rewrite G. cbn. now rewrite E.
Qed.
Lemma find_next_at v k : forall m i, (List.length ch - i = m)%nat -> (m <= k)%nat ->
  find_next k h v (option_map addr (nth_error ch i)) = DOk (option_map addr (hd_error (filter (with_value v) (skipn i ch)))) /\
  match hd_error (filter (with_value v) (skipn i ch)) with
  | None => True
  | Some x => exists j, nth_error ch j = Some x /\ (i <= j)%nat /\ filter (with_value v) (skipn i ch) = x :: filter (with_value v) (skipn (S j) ch)
  end.
Proof.
  revert k. intros k m. revert k. induction m as [|m IH]; intros k i M K.
  - rewrite skipn_all2 by lia. assert (X : nth_error ch i = None) by (apply nth_error_None; lia). rewrite X. destruct k; cbn; auto.
  - destruct (nth_error ch i) as [x|] eqn:X; [|apply nth_error_None in X; lia]. destruct k as [|k]; [lia|].
    assert (SK : skipn i ch = x :: skipn (S i) ch).
    { clear -X. revert i X. induction ch as [|y l IH]; intros [|i] X; cbn in X; try discriminate; [now injection X as ->|]. cbn [skipn]. rewrite (IH i X). reflexivity. }
    rewrite SK. cbn [filter option_map find_next]. destruct (kid_get i x X) as (c & G & _ & C1 & C2 & _). rewrite G. cbn [dbind]. rewrite C1.
    change (with_value v x) with (String.eqb (n_value (dat x)) v). destruct (String.eqb (n_value (dat x)) v) eqn:V.
    + cbn [hd_error option_map]. split; [reflexivity|]. exists i. split; [exact X|]. split; [lia|]. reflexivity.
    + rewrite C2. destruct (IH k (S i) ltac:(lia) ltac:(lia)) as [E1 E2]. split; [exact E1|].
      destruct (hd_error (filter (with_value v) (skipn (S i) ch))) as [y|]; [|exact Logic.I]. destruct E2 as (j & J1 & J2 & J3). exists j. split; [exact J1|]. split; [lia|]. exact J3.
Qed.
Lemma visits_value_at v k : (List.length ch <= k)%nat -> forall m i from, (List.length ch - i = m)%nat ->
  IterateChildrenV k h p v from = find_next k h v (option_map addr (nth_error ch i)) -> visits_value k h p v from (map addr (filter (with_value v) (skipn i ch))).
Proof.
  intros K m. induction m as [m IH] using lt_wf_ind. intros i from M E. destruct (find_next_at v k m i M ltac:(lia)) as [E1 E2]. rewrite E1 in E.
  destruct (filter (with_value v) (skipn i ch)) as [|x l] eqn:FL; cbn in E.
  - now constructor.
  - cbn in E2. destruct E2 as (j & J1 & J2 & J3). injection J3 as J3. subst l. cbn [map]. apply vv_next; [exact E|].
    assert (JL : (j < List.length ch)%nat) by (apply nth_error_Some; congruence).
    apply (IH (List.length ch - S j)%nat ltac:(lia) (S j)); [reflexivity|]. cbn [IterateChildrenV]. destruct (kid_get j x J1) as (c & G & C1 & _ & C2 & _). rewrite G. cbn [dbind].
    rewrite C1, is_ptr_refl. now rewrite C2.
Qed.
Lemma visits_value_all v k : (List.length ch <= k)%nat -> visits_value k h p v None (map addr (filter (with_value v) ch)).
Proof.
  intros K. apply (visits_value_at v k K (List.length ch) 0 None); [lia|]. cbn. destruct par_get as (c & G & E & _). rewrite G. cbn [dbind]. now rewrite E.
Qed.
Lemma visits_value_det v k : forall from l, visits_value k h p v from l -> forall l', visits_value k h p v from l' -> l = l'.
Proof.
  induction 1 as [from E|from a l E _ IH]; intros l' V; inversion V; subst; try congruence. assert (a0 = a) by congruence. subst. f_equal. now apply IH.
Qed.
Lemma find_prev_at v : forall m k x l r, List.length l = m -> ch = l ++ x :: r -> (m < k)%nat ->
  find_prev k h v (Some (addr x)) = DOk (last_addr (filter (with_value v) (l ++ [x]))).
Proof.
  induction m as [|m IH]; intros k x l r M E K; (destruct k as [|k]; [lia|]); cbn [find_prev].
  - destruct l; [|discriminate]. cbn in E. destruct (kid_get 0 x) as (c & G & _ & C1 & _ & C2); [now rewrite E|]. rewrite G. cbn [dbind]. rewrite C1, C2. cbn [app filter]. unfold with_value at 1.
    destruct (String.eqb (n_value (dat x)) v); [reflexivity|]. destruct k; reflexivity.
  - destruct (last_case l) as [->|(l0 & y & ->)]; [discriminate|]. rewrite app_length in M. cbn in M.
    assert (AT : forall (l1 : list tree) y1 r1, nth_error (l1 ++ y1 :: r1) (List.length l1) = Some y1) by (intros l1 y1 r1; induction l1; [reflexivity|assumption]).
    assert (X : nth_error ch (S m) = Some x) by (rewrite E; replace (S m) with (List.length (l0 ++ [y])) by (rewrite app_length; cbn; lia); apply AT).
    assert (Y : nth_error ch m = Some y) by (rewrite E, <- app_assoc; replace m with (List.length l0) by lia; apply AT).
    destruct (kid_get (S m) x X) as (c & G & _ & C1 & _ & C2). rewrite G. cbn [dbind]. rewrite C1, C2, Y. cbn [option_map]. rewrite filter_app. cbn [filter]. unfold with_value at 2.
    destruct (String.eqb (n_value (dat x)) v) eqn:V.
    + unfold last_addr. rewrite rev_unit. reflexivity.
    + rewrite app_nil_r. apply (IH k y l0 (x :: r)); [lia|rewrite E, <- app_assoc; reflexivity|lia].
Qed.
Lemma last_value v k : (List.length ch < k)%nat -> LastChildV k h p v = DOk (last_addr (filter (with_value v) ch)).
Proof.
  intros K. unfold LastChildV. destruct par_get as (c & G & _ & E). rewrite G. cbn [dbind]. rewrite E.
  destruct (last_case ch) as [X|(l0 & x & X)].
  - rewrite X. cbn. destruct k; [lia|reflexivity].
  - rewrite X at 1. unfold last_addr at 1. rewrite rev_unit. rewrite (find_prev_at v (List.length l0) k x l0 []); [now rewrite <- X|reflexivity|exact X|].
    rewrite X, app_length in K. cbn in K. lia.
Qed.
End Walk.

(** ** the document of a node *)
Lemma doc_le h : forall k k' n, (k <= k')%nat -> le_res (GetDocument k h n) (GetDocument k' h n).
Proof.
  induction k as [|k IH]; intros k' [n|] K; try (right; destruct k'; reflexivity).
  - now left.
  - destruct k' as [|k']; [lia|]. cbn [GetDocument]. apply le_bind; [apply le_refl|intros c]. destruct (n_kind (c_data c)); try apply IH; try lia. apply le_refl.
Qed.
Lemma doc_more h k k' n r : GetDocument k h n = DOk r -> (k <= k')%nat -> GetDocument k' h n = DOk r.
Proof. intros E K. destruct (doc_le h k k' n K) as [X|X]; congruence. Qed.
Lemma node_data h F a d ch : links h F -> node_of F (Node a d ch) -> exists c, get h a = DOk c /\ c_data c = d.
Proof. intros (_ & _ & _ & C) I. destruct (C _ _ _ I) as [(c & E & E1 & _) _]. exists c. unfold get. now rewrite E. Qed.
Lemma doc_below h F : links h F -> forall T k r, node_of F T -> GetDocument k h (Some (addr T)) = DOk r -> doc_of F (addr T) r ->
  forall S, In S (subs T) -> exists r', GetDocument (k + tsize T) h (Some (addr S)) = DOk r' /\ doc_of F (addr S) r'.
Proof.
  intros L. induction T as [a d ch IH] using tree_ind'. intros k r I E D S J. destruct J as [<-|J].
  - exists r. split; [|exact D]. eapply doc_more; [exact E|lia].
  - apply in_flat_map in J. destruct J as (t & J1 & J2). rewrite Forall_forall in IH. destruct (In_nth_error ch t J1) as [i Ei].
    destruct (kid_get h F a d ch L I i t Ei) as (c & G & C1 & C2 & _). cbn [addr] in E, D. destruct t as [b db cb]. cbn [addr dat] in *.
    assert (X : exists r', GetDocument (1 + k) h (Some b) = DOk r' /\ doc_of F b r').
    { cbn [Nat.add GetDocument]. rewrite G. cbn [dbind]. rewrite C2, C1. pose proof (node_child F a d ch _ I J1) as Ib.
      destruct (n_kind db) eqn:KB; [exists (Some b); split; [reflexivity|]; eapply doc_here; eassumption|exists r; split; [exact E|]..];
        (eapply doc_above; [exact Ib|congruence| |exact D]; exists d, ch; split; [exact I|]; apply (in_map addr) in J1; exact J1). }
    destruct X as (r1 & X1 & X2). destruct (IH _ J1 (1 + k)%nat r1 (node_child F a d ch _ I J1) X1 X2 S J2) as (r' & Y1 & Y2).
    exists r'. split; [|exact Y2]. eapply doc_more; [exact Y1|]. cbn [tsize]. apply in_split in J1. destruct J1 as (l1 & l2 & ->). rewrite map_app.
    rewrite list_sum_app. change (list_sum (map tsize (Node b db cb :: l2))) with (tsize (Node b db cb) + list_sum (map tsize l2))%nat. cbn [tsize]. lia.
Qed.
Lemma document_ok h F a k : links h F -> In a (all F) -> (List.length (all F) < k)%nat -> exists r, GetDocument k h (Some a) = DOk r /\ doc_of F a r.
Proof.
  intros L I K. apply in_all in I. destruct I as (T & I1 & I2). apply addr_sub in I2. destruct I2 as (S & J1 & <-).
  pose proof (size_le F T (node_root F T I1)) as SZ.
  destruct T as [b d ch]. destruct (node_data h F b d ch L (node_root F _ I1)) as (c & G & C).
  assert (X : exists r, GetDocument 1 h (Some b) = DOk r /\ doc_of F b r).
  { cbn [GetDocument]. rewrite G. cbn [dbind]. rewrite C. destruct L as (_ & _ & R & _). destruct (R _ I1) as (c' & E1 & E2 & _). cbn [addr] in E1. unfold get in G. rewrite E1 in G. injection G as ->.
    rewrite E2. destruct (n_kind d) eqn:KD; [exists (Some b); split; [reflexivity|]; eapply doc_here; [apply node_root; exact I1|exact KD]|exists None; split; [reflexivity|]..];
      (eapply doc_none; [exact I1|congruence]). }
  destruct X as (r & X1 & X2). destruct (doc_below h F L (Node b d ch) 1 r (node_root F _ I1) X1 X2 S J1) as (r' & Y1 & Y2).
  exists r'. split; [|exact Y2]. eapply doc_more; [exact Y1|]. lia.
Qed.
Lemma doc_det F : NoDup (all F) -> forall a r, doc_of F a r -> forall r', doc_of F a r' -> r = r'.
Proof.
  intros N. assert (U : forall a d ch d' ch', node_of F (Node a d ch) -> node_of F (Node a d' ch') -> d = d').
  { intros a d ch d' ch' I I'. pose proof (node_unique F _ _ N I I' eq_refl) as E. congruence. }
  assert (P : forall a d ch q, In (Node a d ch) F -> child_of F q a -> False).
  { intros a d ch q I C. destruct (child_dec F q a N) as [_|[X _]]; [apply node_addr; exists (Node a d ch); split; [now apply node_root|reflexivity]| |contradiction].
    destruct C as (d1 & ch1 & J1 & J2). apply in_map_iff in J2. destruct J2 as (x & E & J2). destruct (In_nth_error _ _ J2) as [i Ei].
    assert (A1 : In (a, cell_of None None None (Node a d ch)) (cf F)) by (apply cf_char; left; eauto).
    assert (A2 : In (a, cell_of (Some q) (prev_at None ch1 i) (option_map addr (nth_error ch1 (S i))) x) (cf F)) by (apply cf_char; right; exists q, d1, ch1, i, x; auto).
    pose proof N as N0. rewrite <- keys_cf in N0. clear -A1 A2 N0. induction (cf F) as [|[y z] W IH]; [contradiction|]. cbn in N0. apply NoDup_cons_iff in N0. destruct N0 as [N1 N2].
    destruct A1 as [A1|A1], A2 as [A2|A2]; [rewrite A1 in A2; apply (f_equal (fun w => c_parent (snd w))) in A2; cbn in A2; congruence| | |auto].
    - injection A1 as -> ->. apply N1. eapply in_keys; exact A2.
    - injection A2 as -> ->. apply N1. eapply in_keys; exact A1. }
  assert (Q : forall a q q', child_of F q a -> child_of F q' a -> q = q').
  { intros a q q' C C'. destruct C as (d1 & ch1 & J1 & J2), C' as (d2 & ch2 & K1 & K2). apply in_map_iff in J2, K2. destruct J2 as (x & E & J2), K2 as (y & E' & K2).
    destruct (In_nth_error _ _ J2) as [i Ei], (In_nth_error _ _ K2) as [j Ej].
    assert (A1 : In (a, cell_of (Some q) (prev_at None ch1 i) (option_map addr (nth_error ch1 (S i))) x) (cf F)) by (apply cf_char; right; exists q, d1, ch1, i, x; auto).
    assert (A2 : In (a, cell_of (Some q') (prev_at None ch2 j) (option_map addr (nth_error ch2 (S j))) y) (cf F)) by (apply cf_char; right; exists q', d2, ch2, j, y; auto).
    pose proof N as N0. rewrite <- keys_cf in N0. clear -A1 A2 N0. induction (cf F) as [|[u z] W IH]; [contradiction|]. cbn in N0. apply NoDup_cons_iff in N0. destruct N0 as [N1 N2].
    destruct A1 as [A1|A1], A2 as [A2|A2]; [rewrite A1 in A2; apply (f_equal (fun w => c_parent (snd w))) in A2; cbn in A2; congruence| | |auto].
    - injection A1 as -> ->. exfalso. apply N1. eapply in_keys; exact A2.
    - injection A2 as -> ->. exfalso. apply N1. eapply in_keys; exact A1. }
  induction 1 as [a d ch I K|a d ch I K|a d ch p r I K C _ IH]; intros r' D'; inversion D'; subst; auto.
  - exfalso. match goal with H : In (Node a ?d1 ?c1) F |- _ => pose proof (U a d ch d1 c1 I (node_root F _ H)) end. congruence.
  - exfalso. match goal with H : node_of F (Node a ?d1 ?c1), H2 : n_kind ?d1 <> KDoc |- _ => pose proof (U a d ch d1 c1 I H) end. congruence.
  - exfalso. match goal with H : node_of F (Node a ?d1 ?c1), H2 : n_kind ?d1 = KDoc |- _ => pose proof (U a d ch d1 c1 (node_root F _ I) H) end. congruence.
  - exfalso. eapply P; eassumption.
  - exfalso. match goal with H : node_of F (Node a ?d1 ?c1), H2 : n_kind ?d1 = KDoc |- _ => pose proof (U a d ch d1 c1 I H) end. congruence.
  - exfalso. eapply P; eassumption.
  - match goal with H : child_of F ?q a, H2 : doc_of F ?q r' |- _ => pose proof (Q a p q C H); subst q; now apply IH end.
Qed.

(** ** outside the rules *)
Lemma remove_stranger k h F p b : live h F -> In b (all F) -> ~ child_of F p b -> step k h (NRemove p b) = DAbort.
Proof.
  intros H I C. destruct (child_dec F p b (live_nodup h F H) I) as [X|[_ X]]; [contradiction|]. destruct (cell_at F b I) as (c & J).
  cbn [step]. unfold RemoveChild. rewrite (hrep_get _ _ _ _ H J). cbn [dbind]. now rewrite (X c J).
Qed.
Lemma self_assign k h F a d ch : live h F -> node_of F (Node a d ch) -> (List.length (all F) <= k)%nat ->
  exists h', step k h (NAssign a a) = DOk (h', None) /\ live h' (place a (Node a d []) F).
Proof.
  intros H I K. pose proof (live_nodup h F H) as N. destruct (focus F _ N I) as (par & prv & nxt & L0 & P1 & P2). cbn [addr] in P2.
  assert (KX : (list_sum (map tsize ch) <= k)%nat) by (pose proof (size_le F _ I); pose proof (kids_size a d ch); lia).
  destruct (clear_ok k par prv nxt a d ch h L0 (hrep_perm _ _ _ P1 H) KX) as (h1 & E & H1 & _). cbn [step]. unfold Assign. rewrite E. cbn [dbind].
  rewrite ct_eq in H1. cbn [cl app] in H1. rewrite (hrep_get1 _ _ _ _ H1). cbn [dbind cell_of c_data dat].
  destruct (hrep_write _ _ _ _ (set_data d) H1) as [E2 H2]. rewrite E2. cbn [dbind]. rewrite (hrep_get1 _ _ _ _ H2). cbn [dbind]. cbn [set_data cell_of c_first kids hd_of].
  assert (X : forall h0, copy_kids (Clone k) k h0 a None = DOk h0) by (intros; destruct k; reflexivity). rewrite X. cbn [dbind].
  eexists. split; [reflexivity|]. unfold live. eapply hrep_perm; [symmetry; apply P2; reflexivity|]. rewrite ct_eq. exact H2.
Qed.
Lemma assign_below k h F a d ch b : live h F -> node_of F (Node a d ch) -> In b (flat_map addrs ch) -> (List.length (all F) <= k)%nat ->
  step k h (NAssign a b) = DUB.
Proof.
  intros H I J K. pose proof (live_nodup h F H) as N. destruct (focus F _ N I) as (par & prv & nxt & L0 & P1 & P2). cbn [addr] in P2.
  assert (KX : (list_sum (map tsize ch) <= k)%nat) by (pose proof (size_le F _ I); pose proof (kids_size a d ch); lia).
  destruct (clear_ok k par prv nxt a d ch h L0 (hrep_perm _ _ _ P1 H) KX) as (h1 & E & H1 & _). cbn [step]. unfold Assign. rewrite E. cbn [dbind].
  assert (G : get h1 b = DUB); [|now rewrite G]. unfold get. destruct (cells h1 b) as [c|] eqn:EC; [exfalso|reflexivity]. destruct H1 as [[_ R] _]. apply R in EC. apply in_keys in EC.
  pose proof (hrep_perm _ _ _ P1 H) as [[N1 _] _]. rewrite ct_eq in N1. unfold keys in EC, N1. rewrite map_app in EC, N1. cbn [map fst] in N1. fold (keys (cl (Some a) None ch None)) (keys L0) in N1.
  rewrite keys_cl in N1. rewrite ct_eq in EC. cbn [cl map fst app] in EC. fold (keys L0) in EC. cbn [app] in N1. apply NoDup_cons_iff in N1. destruct N1 as [N1 N2].
  destruct EC as [->|EC].
  - apply N1. apply in_or_app. now left.
  - apply in_split in J. destruct J as (u & v & J). unfold all in N2. rewrite J in N2. rewrite <- app_assoc in N2. cbn [app] in N2. apply (NoDup_remove_2 u) in N2. apply N2.
    apply in_or_app. right. apply in_or_app. now right.
Qed.
