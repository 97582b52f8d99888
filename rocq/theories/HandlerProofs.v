From Coq Require Import ZArith List Bool Lia String Sorting.Sorted Permutation.
From Verif Require Import Base BaseProofs RBase BitProofs HandlerModel HandlerSpec CgaModel.
Import ListNotations.
Open Scope string_scope.
Open Scope list_scope.
Open Scope Z_scope.

Lemma last_set_d : forall t l d, last_set t d l = match last_set t 0 l with 0 => d | h => h end.
Proof.
  intros t l. induction l as [|[t'|t' h] l IH]; intros d; cbn [last_set]; [reflexivity|apply IH|].
  destruct (String.eqb t t' && negb (h =? 0))%bool eqn:E; [|apply IH].
  rewrite (IH h), (IH d) || rewrite IH. destruct (last_set t 0 l); [|reflexivity|reflexivity].
  apply andb_true_iff in E. destruct E as (_ & E). destruct h; [discriminate|reflexivity|reflexivity].
Qed.
Definition found (s : hmgr) (t : string) : Z := match sm_find t (hm_map s) with Some h => h | None => 0 end.
Lemma get_found : forall s t, fst (getHandler s t) = found s t.
Proof. intros. unfold getHandler, found. destruct (sm_find t (hm_map s)); reflexivity. Qed.
Lemma get_keeps : forall s t t', found (snd (getHandler s t)) t' = found s t'.
Proof.
  intros. unfold getHandler, found. destruct (sm_find t (hm_map s)) eqn:E; [reflexivity|]. cbn [snd hm_map].
  destruct (string_dec t' t) as [->|N]; [rewrite sm_find_set_same, E; reflexivity|rewrite sm_find_set_other by exact N; reflexivity].
Qed.
Lemma set_found : forall s t h s' t', setHandler s t h = Ok s' -> found s' t' = if (String.eqb t' t && negb (h =? 0))%bool then h else found s t'.
Proof.
  intros s t h s' t' H. unfold setHandler in H. destruct (h =? 0) eqn:E; [injection H as <-; rewrite andb_false_r; reflexivity|]. cbn [negb]. rewrite andb_true_r.
  assert (G : hm_map s' = sm_set t h (hm_map s)).
  { destruct (sm_find t (hm_map s)); [|injection H as <-; reflexivity]. destruct (delete_h z (hm_dead s)); cbn in H; try discriminate. injection H as <-. reflexivity. }
  unfold found. rewrite G. destruct (String.eqb_spec t' t) as [->|N]; [rewrite sm_find_set_same; reflexivity|rewrite sm_find_set_other by exact N; reflexivity].
Qed.
Lemma run_found : forall l s s' t, hrun s l = Ok s' -> found s' t = last_set t (found s t) l.
Proof.
  induction l as [|[t'|t' h] l IH]; intros s s' t H; cbn [hrun hstep rbind last_set] in *; [injection H as <-; reflexivity| |].
  - rewrite (IH _ _ t H), get_keeps. reflexivity.
  - destruct (setHandler s t' h) eqn:E; cbn [rbind] in H; try discriminate. rewrite (IH _ _ t H), (set_found _ _ _ _ t E). reflexivity.
Qed.
Lemma built_in_found : forall t, found new_hmgr t = built_in t.
Proof.
  intros t. unfold built_in.
  destruct (String.eqb_spec t "GearParameters") as [->|N1]; [reflexivity|]. destruct (String.eqb_spec t "TPCParameters") as [->|N2]; [reflexivity|].
  destruct (String.eqb_spec t "CalorimeterParameters") as [->|N3]; [reflexivity|]. destruct (String.eqb_spec t "ZPlanarParameters") as [->|N4]; [reflexivity|].
  destruct (String.eqb_spec t "FTDParameters") as [->|N5]; [reflexivity|]. destruct (String.eqb_spec t "TrackerPlanesParameters") as [->|N6]; [reflexivity|].
  destruct (String.eqb_spec t "SiPlanesParameters") as [->|N7]; [reflexivity|]. unfold found, new_hmgr. cbn [hm_map]. rewrite !sm_find_set_other by assumption. reflexivity.
Qed.
Lemma handler_last : forall l s t, hrun new_hmgr l = Ok s -> fst (getHandler s t) = last_set t (built_in t) l.
Proof. intros l s t H. rewrite get_found, (run_found l _ _ t H), built_in_found. reflexivity. Qed.

(** ** memory *)
Definition owned (s : hmgr) : list Z := filter (fun h => negb (h =? 0)) (map snd (hm_map s)).
Lemma sm_set_perm : forall (m : smap Z) k v, StronglySorted slt (sm_keys m) ->
  Permutation (map snd (sm_set k v m)) match sm_find k m with Some old => v :: map snd (filter (fun e => negb (String.eqb k (fst e))) m) | None => v :: map snd m end.
Proof.
  induction m as [|[k' v'] m IH]; intros k v S; [reflexivity|]. cbn [sm_set sm_find]. inversion S; subst. destruct (String.compare k k') eqn:C.
  - apply String.compare_eq_iff in C. subst k'. rewrite String.eqb_refl. cbn [map snd filter fst]. rewrite String.eqb_refl. cbn [negb].
    assert (F : filter (fun e : string * Z => negb (String.eqb k (fst e))) m = m).
    { rewrite Forall_forall in H2. assert (G : forall e, In e m -> String.eqb k (fst e) = false).
      { intros e He. destruct (String.eqb_spec k (fst e)) as [Q|Q]; [|reflexivity]. exfalso. apply (slt_irrefl k). apply H2. rewrite Q. unfold sm_keys. now apply in_map. }
      clear - G. induction m as [|e m IH]; [reflexivity|]. cbn [filter]. rewrite (G e (or_introl eq_refl)). cbn [negb]. f_equal. apply IH. intros; apply G; now right. }
    rewrite F. reflexivity.
  - assert (NE : String.eqb k k' = false). { destruct (String.eqb_spec k k') as [->|N]; [rewrite scompare_refl in C; discriminate|reflexivity]. }
    rewrite NE. assert (NF : sm_find k m = None).
    { apply sm_find_none_iff. intros I. rewrite Forall_forall in H2. apply H2 in I. apply (slt_irrefl k). eapply slt_trans; [|exact I]. exact C. }
    rewrite NF. reflexivity.
  - assert (NE : String.eqb k k' = false). { destruct (String.eqb_spec k k') as [->|N]; [rewrite scompare_refl in C; discriminate|reflexivity]. }
    rewrite NE. cbn [map snd]. specialize (IH k v H1). destruct (sm_find k m); cbn [filter fst]; rewrite ?NE; cbn [negb map snd]; (eapply perm_trans; [apply perm_skip; exact IH|apply perm_swap]).
Qed.
Lemma sm_find_perm : forall (m : smap Z) k old, StronglySorted slt (sm_keys m) -> sm_find k m = Some old ->
  Permutation (map snd m) (old :: map snd (filter (fun e => negb (String.eqb k (fst e))) m)).
Proof.
  induction m as [|[k' v'] m IH]; intros k old S H; [discriminate|]. cbn [sm_find] in H. inversion S; subst. destruct (String.eqb_spec k k') as [->|N].
  - injection H as ->. cbn [map snd filter fst]. rewrite String.eqb_refl. cbn [negb].
    assert (F : filter (fun e : string * Z => negb (String.eqb k' (fst e))) m = m).
    { rewrite Forall_forall in H3. assert (G : forall e, In e m -> String.eqb k' (fst e) = false).
      { intros e He. destruct (String.eqb_spec k' (fst e)) as [Q|Q]; [|reflexivity]. exfalso. apply (slt_irrefl k'). apply H3. rewrite Q. unfold sm_keys. now apply in_map. }
      clear - G. induction m as [|e m IH]; [reflexivity|]. cbn [filter]. rewrite (G e (or_introl eq_refl)). cbn [negb]. f_equal. apply IH. intros; apply G; now right. }
    rewrite F. reflexivity.
  - cbn [map snd filter fst]. apply String.eqb_neq in N. rewrite N. cbn [negb map snd]. eapply perm_trans; [apply perm_skip; apply IH; eassumption|apply perm_swap].
Qed.
Definition hm_ok (s : hmgr) : Prop := StronglySorted slt (sm_keys (hm_map s)) /\ NoDup (owned s ++ hm_dead s).
Lemma filter_perm : forall A (f : A -> bool) l l', Permutation l l' -> Permutation (filter f l) (filter f l').
Proof. intros A f l l' P. induction P; cbn; [constructor|destruct (f x); [now apply perm_skip|assumption]|destruct (f x), (f y); try reflexivity; apply perm_swap|eapply perm_trans; eassumption]. Qed.
Lemma get_ok : forall s t, hm_ok s -> hm_ok (snd (getHandler s t)) /\ Permutation (owned (snd (getHandler s t)) ++ hm_dead (snd (getHandler s t))) (owned s ++ hm_dead s).
Proof.
  intros s t (S & N). unfold getHandler. destruct (sm_find t (hm_map s)) eqn:E; [split; [split; assumption|reflexivity]|]. cbn [snd hm_map hm_dead].
  pose proof (sm_set_perm (hm_map s) t 0 S) as P. rewrite E in P. apply (filter_perm _ (fun h => negb (h =? 0))) in P. cbn [filter Z.eqb negb] in P.
  assert (Q : Permutation (owned (mkHM (sm_set t 0 (hm_map s)) (hm_dead s)) ++ hm_dead s) (owned s ++ hm_dead s)) by (apply Permutation_app_tail; exact P).
  split; [split; [now apply sm_set_sorted|]|exact Q]. cbn [hm_dead]. eapply Permutation_NoDup; [apply Permutation_sym; exact Q|exact N].
Qed.
Lemma set_ok : forall s t h, hm_ok s -> h <> 0 -> ~ In h (owned s ++ hm_dead s) ->
  exists s', setHandler s t h = Ok s' /\ hm_ok s' /\ Permutation (owned s' ++ hm_dead s') (h :: owned s ++ hm_dead s).
Proof.
  intros s t h (S & N) H0 HN. unfold setHandler. destruct (Z.eqb_spec h 0); [contradiction|].
  pose proof (sm_set_perm (hm_map s) t h S) as P. destruct (sm_find t (hm_map s)) as [old|] eqn:E.
  - pose proof (sm_find_perm _ _ _ S E) as P2. set (rest := map snd (filter (fun e => negb (String.eqb t (fst e))) (hm_map s))) in *.
    apply (filter_perm _ (fun h => negb (h =? 0))) in P, P2. cbn [filter] in P, P2. destruct (Z.eqb_spec h 0); [contradiction|]. cbn [negb] in P.
    unfold delete_h. destruct (Z.eqb_spec old 0) as [->|No]; cbn [negb] in P2; cbn [rmap].
    + eexists. split; [reflexivity|].
      assert (Q : Permutation (owned (mkHM (sm_set t h (hm_map s)) (hm_dead s)) ++ hm_dead s) (h :: owned s ++ hm_dead s)).
      { unfold owned. cbn [hm_map]. rewrite P. cbn [app]. apply perm_skip. apply Permutation_app_tail. apply Permutation_sym. exact P2. }
      split; [|exact Q]. split; [now apply sm_set_sorted|]. cbn [hm_dead]. eapply Permutation_NoDup; [apply Permutation_sym; exact Q|]. constructor; assumption.
    + assert (D : existsb (Z.eqb old) (hm_dead s) = false).
      { apply not_true_is_false. intros X. apply existsb_exists in X. destruct X as (y & Y & Z0). apply Z.eqb_eq in Z0. subst y.
        assert (X : NoDup ((old :: filter (fun h => negb (h =? 0)) rest) ++ hm_dead s)) by (eapply Permutation_NoDup; [|exact N]; apply Permutation_app_tail; exact P2).
        cbn [app] in X. inversion X; subst. apply H2. apply in_or_app. now right. }
      rewrite D. cbn [rmap]. eexists. split; [reflexivity|].
      assert (Q : Permutation (owned (mkHM (sm_set t h (hm_map s)) (old :: hm_dead s)) ++ old :: hm_dead s) (h :: owned s ++ hm_dead s)).
      { unfold owned at 1. cbn [hm_map]. rewrite P. cbn [app]. apply perm_skip. rewrite <- Permutation_middle. rewrite app_comm_cons.
        apply Permutation_app_tail. apply Permutation_sym. exact P2. }
      split; [|exact Q]. split; [now apply sm_set_sorted|]. cbn [hm_dead]. eapply Permutation_NoDup; [apply Permutation_sym; exact Q|]. constructor; assumption.
  - apply (filter_perm _ (fun h => negb (h =? 0))) in P. cbn [filter] in P. destruct (Z.eqb_spec h 0); [contradiction|]. cbn [negb] in P.
    eexists. split; [reflexivity|].
    assert (Q : Permutation (owned (mkHM (sm_set t h (hm_map s)) (hm_dead s)) ++ hm_dead s) (h :: owned s ++ hm_dead s)).
    { unfold owned. cbn [hm_map]. rewrite P. reflexivity. }
    split; [|exact Q]. split; [now apply sm_set_sorted|]. cbn [hm_dead]. eapply Permutation_NoDup; [apply Permutation_sym; exact Q|]. constructor; assumption.
Qed.
Lemma run_ok : forall l s, hm_ok s -> NoDup (given l ++ owned s ++ hm_dead s) ->
  exists s', hrun s l = Ok s' /\ hm_ok s' /\ Permutation (owned s' ++ hm_dead s') (given l ++ owned s ++ hm_dead s).
Proof.
  induction l as [|[t|t h] l IH]; intros s K N; cbn [hrun hstep rbind given] in *; [exists s; auto| |].
  - destruct (get_ok s t K) as (K' & P). destruct (IH _ K') as (s' & E & K2 & P2); [eapply Permutation_NoDup; [|exact N]; apply Permutation_app_head; now apply Permutation_sym|].
    exists s'. split; [exact E|]. split; [exact K2|]. eapply perm_trans; [exact P2|]. apply Permutation_app_head. exact P.
  - destruct (Z.eqb_spec h 0) as [->|H0].
    + unfold setHandler. cbn [Z.eqb rbind]. apply IH; assumption.
    + assert (NH : ~ In h (given l ++ owned s ++ hm_dead s)) by (cbn [app] in N; inversion N; assumption). destruct (set_ok s t h K H0) as (s1 & E1 & K1 & P1); [intros I; apply NH; apply in_or_app; now right|]. rewrite E1. cbn [rbind].
      assert (P3 : Permutation (given l ++ owned s1 ++ hm_dead s1) (h :: given l ++ owned s ++ hm_dead s)).
      { rewrite P1. symmetry. apply Permutation_middle. }
      destruct (IH _ K1) as (s' & E & K2 & P2); [eapply Permutation_NoDup; [apply Permutation_sym; exact P3|exact N]|]. exists s'. split; [exact E|]. split; [exact K2|]. eapply perm_trans; [exact P2|exact P3].
Qed.
Lemma new_ok : hm_ok new_hmgr /\ owned new_hmgr = [3; 5; 1; 7; 2; 6; 4] /\ hm_dead new_hmgr = [].
Proof.
  split; [|split; reflexivity]. split; [unfold new_hmgr; cbn [hm_map]; repeat apply sm_set_sorted; constructor|].
  assert (E : owned new_hmgr ++ hm_dead new_hmgr = [3; 5; 1; 7; 2; 6; 4]) by reflexivity. rewrite E. repeat constructor; cbn; intuition discriminate.
Qed.
Lemma delete_all_ok : forall l dead, NoDup (filter (fun h => negb (h =? 0)) l ++ dead) ->
  exists d, delete_all l dead = Ok d /\ Permutation d (filter (fun h => negb (h =? 0)) l ++ dead).
Proof.
  induction l as [|h l IH]; intros dead N; cbn [delete_all filter] in *; [exists dead; split; reflexivity|]. unfold delete_h. destruct (Z.eqb_spec h 0) as [->|H0]; cbn [negb rbind] in *; [apply IH; exact N|].
  cbn [app] in N. assert (NH : ~ In h (filter (fun h => negb (h =? 0)) l ++ dead)) by (inversion N; assumption). assert (D : existsb (Z.eqb h) dead = false).
  { apply not_true_is_false. intros X. apply existsb_exists in X. destruct X as (y & Y & Z0). apply Z.eqb_eq in Z0. subst y. apply NH. apply in_or_app. now right. }
  rewrite D. cbn [rbind]. destruct (IH (h :: dead)) as (d & E & P); [eapply Permutation_NoDup; [apply Permutation_middle|]; exact N|]. exists d. split; [exact E|]. rewrite P. symmetry. apply Permutation_middle.
Qed.
Lemma given_ok : forall l, given_once l -> NoDup (given l ++ owned new_hmgr ++ hm_dead new_hmgr).
Proof.
  intros l (N & B). destruct new_ok as (_ & -> & ->). cbn [app]. 
  assert (G : forall a b : list Z, NoDup a -> NoDup b -> (forall x, In x a -> ~ In x b) -> NoDup (a ++ b)).
  { induction a as [|x a IH]; intros b Na Nb D; [exact Nb|]. inversion Na; subst. cbn. constructor; [|apply IH; [assumption|assumption|intros; apply D; now right]].
    intros I. apply in_app_or in I. destruct I as [I|I]; [contradiction|]. apply (D x); [now left|exact I]. }
  apply G; [exact N|repeat constructor; cbn; intuition discriminate|]. intros x I J. apply (B x I). cbn in J. lia.
Qed.
Lemma memory_safe : forall l, given_once l -> exists s d, hrun new_hmgr l = Ok s /\
  (forall t, let h := fst (getHandler s t) in h = 0 \/ ~ In h (hm_dead s)) /\
  destroy s = Ok d /\ Permutation d (given l ++ [1; 2; 3; 4; 5; 6; 7]).
Proof.
  intros l G. destruct new_ok as (K & O & D). destruct (run_ok l new_hmgr K (given_ok l G)) as (s & E & K2 & P).
  assert (N : NoDup (owned s ++ hm_dead s)) by apply K2.
  destruct (delete_all_ok (map snd (hm_map s)) (hm_dead s) N) as (d & E2 & P2). exists s, d. split; [exact E|]. split; [|split; [exact E2|]].
  - intros t. cbn zeta. rewrite get_found. unfold found. destruct (sm_find t (hm_map s)) as [h|] eqn:F; [|now left]. destruct (Z.eq_dec h 0); [now left|right]. intros I.
    assert (Io : In h (owned s)). { unfold owned. apply filter_In. split; [apply sm_find_in in F; change h with (snd (t, h)); now apply in_map|destruct (Z.eqb_spec h 0); [contradiction|reflexivity]]. }
    clear - N I Io. induction (owned s) as [|x o IH]; [contradiction|]. cbn in N. inversion N; subst. destruct Io as [->|Io]; [apply H1; apply in_or_app; now right|now apply IH].
  - rewrite P2. change (filter (fun h => negb (h =? 0)) (map snd (hm_map s))) with (owned s). rewrite P, O, D, app_nil_r. apply Permutation_app_head.
    apply NoDup_Permutation; [repeat constructor; cbn; intuition discriminate|repeat constructor; cbn; intuition discriminate|]. intros x. cbn. tauto.
Qed.
(** ** the same handler handed over twice *)
Lemma twice_same_type : forall l s t h, hrun new_hmgr l = Ok s -> h <> 0 -> hrun s [HSet t h; HSet t h] = UB \/
  exists s', hrun s [HSet t h; HSet t h] = Ok s' /\ fst (getHandler s' t) = h /\ In h (hm_dead s') /\ destroy s' = UB.
Proof.
  intros l s t h E H0. destruct (hrun s [HSet t h; HSet t h]) as [s'|e|] eqn:R; [right|exfalso|now left].
  - exists s'. split; [reflexivity|]. split; [rewrite get_found, (run_found _ _ _ t R); cbn [last_set]; rewrite String.eqb_refl; destruct (Z.eqb_spec h 0); [contradiction|reflexivity]|].
    cbn [hrun hstep rbind] in R. destruct (setHandler s t h) as [s1|e|] eqn:E1; cbn [rbind] in R; try discriminate. destruct (setHandler s1 t h) as [s2|e|] eqn:E2; cbn [rbind] in R; try discriminate. injection R as <-.
    pose proof (set_found s t h s1 t E1) as F. rewrite String.eqb_refl in F. destruct (Z.eqb_spec h 0) as [|_] in F; [contradiction|]. cbn in F.
    unfold setHandler in E2. destruct (Z.eqb_spec h 0); [contradiction|]. unfold found in F. destruct (sm_find t (hm_map s1)) as [old|] eqn:Q; [|congruence]. subst old.
    unfold delete_h in E2. destruct (Z.eqb_spec h 0); [contradiction|]. destruct (existsb (Z.eqb h) (hm_dead s1)); cbn in E2; [discriminate|]. injection E2 as <-. cbn [hm_dead hm_map]. split; [now left|].
    unfold destroy. cbn [hm_map hm_dead]. assert (I : In h (map snd (sm_set t h (hm_map s1)))).
    { change h with (snd (t, h)). apply in_map. apply sm_find_in. apply sm_find_set_same. }
    assert (G : forall m d, In h m -> In h d -> delete_all m d = UB).
    { clear - H0. induction m as [|x m IH]; intros d Hm Hd; [contradiction|]. cbn [delete_all]. unfold delete_h. destruct (Z.eqb_spec x 0) as [->|]; cbn [rbind].
      - apply IH; [destruct Hm as [<-|Hm]; [contradiction|exact Hm]|exact Hd].
      - destruct (existsb (Z.eqb x) d) eqn:Q; [reflexivity|]. cbn [rbind]. destruct Hm as [->|Hm].
        + exfalso. assert (X : existsb (Z.eqb h) d = true) by (apply existsb_exists; exists h; split; [exact Hd|apply Z.eqb_refl]). congruence.
        + apply IH; [exact Hm|now right]. }
    apply G; [exact I|now left].
  - cbn [hrun hstep rbind] in R. unfold setHandler in R. destruct (Z.eqb_spec h 0); [contradiction|]. unfold delete_h in R.
    repeat match type of R with context [match ?x with _ => _ end] => destruct x; cbn [rbind rmap hm_dead hm_map] in R; try discriminate end.
Qed.
Lemma two_types : forall t t' h h', t <> t' -> built_in t = 0 -> built_in t' = 0 -> h <> 0 -> h' <> 0 ->
  exists s, hrun new_hmgr [HSet t h; HSet t' h; HSet t h'] = Ok s /\ fst (getHandler s t') = h /\ In h (hm_dead s).
Proof.
  intros t t' h h' N B B' H H'. rewrite <- built_in_found in B, B'. unfold found in B, B'.
  assert (F : forall t, match sm_find t (hm_map new_hmgr) with Some h => h | None => 0 end = 0 -> sm_find t (hm_map new_hmgr) = None).
  { intros u Q. destruct (sm_find u (hm_map new_hmgr)) as [x|] eqn:E; [|reflexivity]. subst x. exfalso. apply sm_find_in in E. vm_compute in E. intuition discriminate. }
  apply F in B. apply F in B'. set (m := new_hmgr) in *. cbn [hrun hstep rbind]. unfold setHandler at 1. destruct (Z.eqb_spec h 0); [contradiction|]. rewrite B. cbn [rbind].
  unfold setHandler at 1. destruct (Z.eqb_spec h 0); [contradiction|]. cbn [hm_map hm_dead]. rewrite sm_find_set_other by congruence. rewrite B'. cbn [rbind].
  unfold setHandler at 1. destruct (Z.eqb_spec h' 0); [contradiction|]. cbn [hm_map hm_dead]. rewrite sm_find_set_other, sm_find_set_same by congruence.
  unfold delete_h. destruct (Z.eqb_spec h 0); [contradiction|]. assert (Dd : hm_dead m = []) by reflexivity. rewrite Dd. cbn [existsb rmap rbind]. eexists. split; [reflexivity|]. split; [|now left].
  rewrite get_found. unfold found. cbn [hm_map]. rewrite sm_find_set_other, sm_find_set_same by congruence. reflexivity.
Qed.

(** ** cell ids *)
Lemma cell_value : forall id0 id1 flag, 0 <= id0 <= 2147483647 -> is_int32 id1 -> flag <> -1 ->
  getCellID id0 id1 flag = Ok (id1 * 4294967296 + id0).
Proof.
  intros id0 id1 flag H0 H1 HF. unfold getCellID. destruct (Z.ltb_spec id0 0); [lia|]. destruct (Z.eqb_spec flag (-1)); [contradiction|]. unfold is_int32 in H1. f_equal.
  assert (U0 : to_ull id0 = id0) by (unfold to_ull; apply Z.mod_small; lia). rewrite U0, Z.shiftl_0_r, U0.
  assert (A0 : Z.land id0 4294967295 = id0). { change 4294967295 with (Z.ones 32). rewrite Z.land_ones by lia. apply Z.mod_small. change (2 ^ 32) with 4294967296. lia. }
  rewrite A0.
  set (u := id1 mod 4294967296).
  assert (HU : 0 <= u < 4294967296) by (apply Z.mod_pos_bound; lia).
  assert (S1 : to_ull (Z.shiftl (to_ull id1) 32) = u * 4294967296).
  { rewrite Z.shiftl_mul_pow2 by lia. change (2 ^ 32) with 4294967296. unfold to_ull. rewrite Z.mul_mod_idemp_l by lia. change 18446744073709551616 with (4294967296 * 4294967296).
    rewrite Z.mul_mod_distr_r by lia. reflexivity. }
  rewrite S1.
  assert (A1 : Z.land (u * 4294967296) 18446744069414584320 = u * 4294967296).
  { change 18446744069414584320 with (Z.shiftl (Z.ones 32) 32). replace (u * 4294967296) with (Z.shiftl u 32) by (rewrite Z.shiftl_mul_pow2 by lia; reflexivity).
    rewrite <- Z.shiftl_land. rewrite Z.land_ones by lia. rewrite Z.mod_small; [reflexivity|]. change (2 ^ 32) with 4294967296. lia. }
  rewrite A1, Z.lor_comm. replace (u * 4294967296) with (Z.shiftl u 32) by (rewrite Z.shiftl_mul_pow2 by lia; reflexivity).
  rewrite lor_shiftl_add by (try lia; change (2 ^ 32) with 4294967296; lia). change (2 ^ 32) with 4294967296.
  unfold to_ll, to_ull. rewrite Z.mod_small by lia.
  assert (UC : u = if id1 <? 0 then id1 + 4294967296 else id1).
  { unfold u. destruct (Z.ltb_spec id1 0); [symmetry; apply Z.mod_unique with (-1); lia|apply Z.mod_small; lia]. }
  rewrite UC. destruct (Z.ltb_spec id1 0).
  - destruct (Z.ltb_spec ((id1 + 4294967296) * 4294967296 + id0) 9223372036854775808); lia.
  - destruct (Z.ltb_spec (id1 * 4294967296 + id0) 9223372036854775808); lia.
Qed.
Lemma cell_decode : forall id0 id1 flag v, 0 <= id0 <= 2147483647 -> is_int32 id1 -> getCellID id0 id1 flag = Ok v ->
  id0 = v mod 4294967296 /\ id1 = v / 4294967296 /\ -9223372036854775808 <= v <= 9223372036854775807.
Proof.
  intros id0 id1 flag v H0 H1 E. assert (HF : flag <> -1). { intros ->. unfold getCellID in E. destruct (Z.ltb_spec id0 0); [lia|]. discriminate. }
  rewrite (cell_value id0 id1 flag H0 H1 HF) in E. injection E as <-. unfold is_int32 in H1. rewrite Z.add_comm, Z.mod_add, Z.div_add by lia. rewrite Z.mod_small, Z.div_small by lia. lia.
Qed.
Lemma cell_throws : forall id0 id1 flag, (id0 < 0 \/ flag = -1) <-> exists e, getCellID id0 id1 flag = Throw (EGear e).
Proof.
  intros. unfold getCellID. destruct (Z.ltb_spec id0 0); [split; [eexists; reflexivity|lia]|]. destruct (Z.eqb_spec flag (-1)); [split; [eexists; reflexivity|lia]|]. split; [lia|intros (e & E); discriminate].
Qed.
Lemma cell_injective : forall a b f a' b' f' v, is_int32 a -> is_int32 b -> is_int32 a' -> is_int32 b' ->
  getCellID a b f = Ok v -> getCellID a' b' f' = Ok v -> a = a' /\ b = b'.
Proof.
  intros a b f a' b' f' v A B A' B' E E'. unfold is_int32 in A, A'.
  assert (P : 0 <= a). { unfold getCellID in E. destruct (Z.ltb_spec a 0); [discriminate|lia]. }
  assert (P' : 0 <= a'). { unfold getCellID in E'. destruct (Z.ltb_spec a' 0); [discriminate|lia]. }
  destruct (cell_decode a b f v ltac:(lia) B E) as (D1 & D2 & _). destruct (cell_decode a' b' f' v ltac:(lia) B' E') as (D3 & D4 & _). lia.
Qed.
Lemma init_once : forall first later, fold_left cga_init (first :: later) [] = [first].
Proof. intros first later. cbn. induction later as [|a later IH]; [reflexivity|exact IH]. Qed.
