From Coq Require Import Arith List String Bool Sorted Lia.
From Verif Require Import Base BaseProofs RefModel RefSpec.
Import ListNotations.

Lemma kind_eqb_eq a b : kind_eqb a b = true <-> a = b. Proof. destruct a, b; split; (discriminate || reflexivity). Qed.
Lemma kind_eqb_refl a : kind_eqb a a = true. Proof. now destruct a. Qed.
Lemma kind_dec (a b : kind) : a = b \/ a <> b. Proof. destruct a, b; (left; reflexivity) || (right; discriminate). Qed.
Lemma upd_same {A} (f : kind -> A) k x : upd f k x k = x. Proof. unfold upd. now rewrite kind_eqb_refl. Qed.
Lemma upd_other {A} (f : kind -> A) k x j : k <> j -> upd f k x j = f j.
Proof. intros N. unfold upd. destruct (kind_eqb k j) eqn:E; [apply kind_eqb_eq in E; congruence|reflexivity]. Qed.

Section W.
Context {W : Type}.
Notation obj := (@obj W).
Notation call := (@call W).

(** ** nodes *)
Lemma put_len (l : list W) n v : List.length (put l n v) = List.length l. Proof. revert n. induction l; intros [|n]; cbn; auto. Qed.
Lemma put_same (l : list W) n v : n < List.length l -> nth_error (put l n v) n = Some v.
Proof. revert n. induction l; intros [|n] L; cbn in *; try lia; auto. apply IHl. lia. Qed.
Lemma put_other (l : list W) n v m : n <> m -> nth_error (put l n v) m = nth_error l m.
Proof. revert n m. induction l; intros [|n] [|m] N; cbn; auto; try congruence. Qed.
(** keys have nodes of their own *)
Definition inj (o : obj) : Prop :=
  (forall k key n, sm_find key (o_map o k) = Some n -> n < List.length (o_nodes o)) /\
  forall k key n k' key', sm_find key (o_map o k) = Some n -> sm_find key' (o_map o k') = Some n -> k = k' /\ key = key'.
Definition same_maps (a b : obj) : Prop := o_map a = o_map b /\ o_nodes a = o_nodes b.
Lemma fold_push (k : kind) l : forall o : obj, same_maps (fold_left (fun o key => push o k key) l o) o /\ o_clears (fold_left (fun o key => push o k key) l o) = o_clears o /\
  o_keys (fold_left (fun o key => push o k key) l o) k = o_keys o k ++ l /\ forall j, k <> j -> o_keys (fold_left (fun o key => push o k key) l o) j = o_keys o j.
Proof.
  induction l as [|x l IH]; intros o; cbn [fold_left]; [rewrite app_nil_r; repeat split|]. destruct (IH (push o k x)) as ([A1 A2] & B & C & D). repeat split.
  - exact A1.
  - exact A2.
  - exact B.
  - rewrite C. cbn [push o_keys]. rewrite upd_same, <- app_assoc. reflexivity.
  - intros j N. rewrite (D j N). cbn [push o_keys]. now apply upd_other.
Qed.
Lemma get_keys_spec (o : obj) k : same_maps (get_keys o k) o /\ o_clears (get_keys o k) k = S (o_clears o k) /\ o_keys (get_keys o k) k = sm_keys (o_map o k) /\
  forall j, k <> j -> o_keys (get_keys o k) j = o_keys o j /\ o_clears (get_keys o k) j = o_clears o j.
Proof.
  unfold get_keys. destruct (fold_push k (sm_keys (o_map o k)) (clear o k)) as ([A1 A2] & B & C & D). repeat split.
  - exact A1.
  - exact A2.
  - rewrite B. cbn [clear o_clears]. apply upd_same.
  - rewrite C. cbn [clear o_keys]. now rewrite upd_same.
  - rewrite D by assumption. cbn [clear o_keys]. now apply upd_other.
  - rewrite B. cbn [clear o_clears]. now apply upd_other.
Qed.
Lemma set_find_other (o : obj) k key v k' key' : (k, key) <> (k', key') -> sm_find key' (o_map (set_val o k key v) k') = sm_find key' (o_map o k').
Proof.
  intros N. unfold set_val. destruct (sm_find key (o_map o k)) as [n|] eqn:F; [reflexivity|]. cbn [o_map]. destruct (kind_dec k k') as [->|NK]; [|now rewrite upd_other].
  rewrite upd_same. apply sm_find_set_other. congruence.
Qed.
Lemma set_find_same (o : obj) k key v : inj o -> exists n, sm_find key (o_map (set_val o k key v) k) = Some n /\ nth_error (o_nodes (set_val o k key v)) n = Some v /\
  (forall m, sm_find key (o_map o k) = Some m -> m = n) /\ (forall m, m <> n -> m < List.length (o_nodes o) -> nth_error (o_nodes (set_val o k key v)) m = nth_error (o_nodes o) m) /\
  (sm_find key (o_map o k) = None -> n = List.length (o_nodes o)) /\ List.length (o_nodes o) <= List.length (o_nodes (set_val o k key v)).
Proof.
  intros [I1 I2]. unfold set_val. destruct (sm_find key (o_map o k)) as [n|] eqn:F; cbn [o_map o_nodes].
  - exists n. split; [exact F|]. split; [apply put_same; now apply I1 with k key|]. split; [congruence|]. split; [intros m N _; apply put_other; congruence|]. split; [discriminate|]. rewrite put_len. lia.
  - exists (List.length (o_nodes o)). rewrite upd_same, sm_find_set_same. split; [reflexivity|]. split; [rewrite nth_error_app2, Nat.sub_diag by lia; reflexivity|]. split; [discriminate|].
    split; [intros m N L; now apply nth_error_app1|]. split; [reflexivity|]. rewrite app_length. lia.
Qed.
Lemma set_inj (o : obj) k key v : inj o -> inj (set_val o k key v).
Proof.
  intros I. destruct (set_find_same o k key v I) as (n & F & V & OLD & _ & NEW & LEN). destruct I as [I1 I2].
  assert (CASE : forall k' key' m, sm_find key' (o_map (set_val o k key v) k') = Some m -> (k' = k /\ key' = key /\ m = n) \/ ((k, key) <> (k', key') /\ sm_find key' (o_map o k') = Some m)).
  { intros k' key' m H. destruct (kind_dec k k') as [->|NK]; [|right; split; [congruence|rewrite set_find_other in H by congruence; exact H]].
    destruct (string_dec key key') as [->|NK]; [left; repeat split; congruence|right; split; [congruence|rewrite set_find_other in H by congruence; exact H]]. }
  assert (NB : forall k' key' m, (k, key) <> (k', key') -> sm_find key' (o_map o k') = Some m -> m <> n).
  { intros k' key' m N H ->. destruct (sm_find key (o_map o k)) as [m|] eqn:E.
    - assert (m = n) by now apply OLD. subst. destruct (I2 _ _ _ _ _ E H). congruence.
    - specialize (NEW eq_refl). apply I1 in H. lia. }
  split.
  - intros k' key' m H. destruct (CASE _ _ _ H) as [(-> & -> & ->)|[_ H']]; [apply nth_error_Some; congruence|]. apply I1 in H'. lia.
  - intros k1 key1 m k2 key2 H1 H2. destruct (CASE _ _ _ H1) as [(-> & -> & ->)|[N1 H1']], (CASE _ _ _ H2) as [(-> & -> & E)|[N2 H2']]; auto.
    + now destruct (NB _ _ _ N2 H2').
    + subst. now destruct (NB _ _ _ N1 H1').
    + now apply I2 with m.
Qed.
Lemma step_inj (o : obj) c : inj o -> inj (do_call o c).
Proof. intros I. destruct c as [k key v|k key|k]; cbn [do_call]; [now apply set_inj|exact I|]. destruct (get_keys_spec o k) as ([A B] & _). unfold inj. now rewrite A, B. Qed.
Lemma new_inj : inj (@obj_new W). Proof. split; intros; discriminate. Qed.

(** ** histories, by their last call *)
Lemma calls_snoc (o : obj) h c : do_calls o (h ++ [c]) = do_call (do_calls o h) c. Proof. unfold do_calls. now rewrite fold_left_app. Qed.
Lemma calls_app (o : obj) h h' : do_calls o (h ++ h') = do_calls (do_calls o h) h'. Proof. unfold do_calls. now rewrite fold_left_app. Qed.
Lemma calls_inj (o : obj) h : inj o -> inj (do_calls o h).
Proof. revert o. induction h as [|c h IH]; intros o I; [exact I|]. cbn. apply IH. now apply step_inj. Qed.
Lemma stored_same (h : list call) k key v : stored (h ++ [CSet k key v]) k key v.
Proof. exists h, []. split; [reflexivity|]. intros v' []. Qed.
Lemma stored_other (h : list call) k key v c : (forall v', c <> CSet k key v') -> stored h k key v -> stored (h ++ [c]) k key v.
Proof.
  intros N (h1 & h2 & -> & A). exists h1, (h2 ++ [c]). split; [rewrite <- app_assoc; reflexivity|]. intros v' I. apply in_app_or in I. destruct I as [I|[E|[]]]; [now apply A in I|now apply (N v')].
Qed.
Lemma has_snoc (h : list call) k key c : has_key (h ++ [c]) k key <-> has_key h k key \/ exists v, c = CSet k key v.
Proof.
  split.
  - intros (v & I). apply in_app_or in I. destruct I as [I|[E|[]]]; [left; now exists v|right; eauto].
  - intros [(v & I)|(v & ->)]; exists v; apply in_or_app; [now left|right; now left].
Qed.
Lemma map_spec (h : list call) k key :
  match sm_find key (o_map (do_calls obj_new h) k) with
  | Some n => exists v, nth_error (o_nodes (do_calls obj_new h)) n = Some v /\ stored h k key v
  | None => ~ has_key h k key
  end.
Proof.
  induction h as [|c h IH] using rev_ind; [cbn; intros (v & [])|]. rewrite calls_snoc. pose proof (calls_inj obj_new h new_inj) as I.
  destruct c as [k' key' v'|k' key'|k']; cbn [do_call].
  - destruct (set_find_same _ k' key' v' I) as (n & F & V & OLD & KEEP & NEW & LEN). destruct (kind_dec k k') as [->|NK]; [destruct (string_dec key key') as [->|NK]|].
    + rewrite F. exists v'. split; [exact V|apply stored_same].
    + rewrite set_find_other by congruence. destruct (sm_find key (o_map (do_calls obj_new h) k')) as [m|] eqn:E.
      * destruct IH as (v & NV & S). exists v. split; [|apply stored_other; [congruence|exact S]]. rewrite KEEP; auto; [|now apply I with k' key].
        intros ->. destruct (set_inj _ k' key' v' I) as [_ I2]. rewrite <- (set_find_other _ k' key' v' k' key) in E by congruence. destruct (I2 _ _ _ _ _ E F). congruence.
      * rewrite has_snoc. intros [H|(v & Q)]; [auto|congruence].
    + rewrite set_find_other by congruence. destruct (sm_find key (o_map (do_calls obj_new h) k)) as [m|] eqn:E.
      * destruct IH as (v & NV & S). exists v. split; [|apply stored_other; [congruence|exact S]]. rewrite KEEP; auto; [|now apply I with k key].
        intros ->. destruct (set_inj _ k' key' v' I) as [_ I2]. rewrite <- (set_find_other _ k' key' v' k key) in E by congruence. destruct (I2 _ _ _ _ _ E F). congruence.
      * rewrite has_snoc. intros [H|(v & Q)]; [auto|congruence].
  - destruct (sm_find key (o_map (do_calls obj_new h) k)); [destruct IH as (v & A & B); exists v; split; [exact A|apply stored_other; [discriminate|exact B]]|]. rewrite has_snoc. intros [H|(v & Q)]; [auto|discriminate].
  - destruct (get_keys_spec (do_calls obj_new h) k') as ([A B] & _). rewrite A, B.
    destruct (sm_find key (o_map (do_calls obj_new h) k)); [destruct IH as (v & C & D); exists v; split; [exact C|apply stored_other; [discriminate|exact D]]|]. rewrite has_snoc. intros [H|(v & Q)]; [auto|discriminate].
Qed.
Lemma sorted_maps (h : list call) k : StronglySorted slt (sm_keys (o_map (do_calls obj_new h) k)).
Proof.
  induction h as [|c h IH] using rev_ind; [constructor|]. rewrite calls_snoc. destruct c as [k' key' v'|k' key'|k']; cbn [do_call]; [|exact IH|destruct (get_keys_spec (do_calls obj_new h) k') as ([A B] & _); now rewrite A].
  unfold set_val. destruct (sm_find _ _); [exact IH|]. cbn [o_map]. destruct (kind_dec k' k) as [->|N]; [rewrite upd_same; now apply sm_set_sorted|now rewrite upd_other].
Qed.
Lemma map_keys (h : list call) k : keys_of h k (sm_keys (o_map (do_calls obj_new h) k)).
Proof.
  split; [apply sorted_maps|]. intros key. pose proof (map_spec h k key) as M. destruct (sm_find key (o_map (do_calls obj_new h) k)) as [n|] eqn:E.
  - split; intros _; [|apply sm_find_in in E; now apply (in_map fst) in E]. destruct M as (v & _ & h1 & h2 & -> & _). exists v. apply in_or_app. right. now left.
  - apply sm_find_none_iff in E. tauto.
Qed.
(** references to values *)
Lemma find_stays (h : list call) : forall (o : obj) k key n, sm_find key (o_map o k) = Some n -> sm_find key (o_map (do_calls o h) k) = Some n.
Proof.
  induction h as [|c h IH]; intros o k key n F; [exact F|]. cbn. apply IH. destruct c as [k' key' v'|k' key'|k']; cbn [do_call]; [|exact F|destruct (get_keys_spec o k') as ([A B] & _); now rewrite A].
  unfold set_val. destruct (sm_find key' (o_map o k')) as [m|] eqn:E; [exact F|]. cbn [o_map]. destruct (kind_dec k' k) as [->|N]; [|now rewrite upd_other]. rewrite upd_same.
  destruct (string_dec key key') as [->|N]; [congruence|]. now rewrite sm_find_set_other.
Qed.
Lemma keys_vec (h : list call) k : keys_then h k (o_keys (do_calls obj_new h) k).
Proof.
  induction h as [|c h IH] using rev_ind; [left; split; [auto|reflexivity]|]. rewrite calls_snoc.
  assert (OTHER : c <> CKeys k -> o_keys (do_call (do_calls obj_new h) c) k = o_keys (do_calls obj_new h) k -> keys_then (h ++ [c]) k (o_keys (do_call (do_calls obj_new h) c) k)).
  { intros N E. rewrite E. destruct IH as [[A B]|(h1 & h2 & -> & A & B)].
    - left. split; [|exact B]. intros I. apply in_app_or in I. destruct I as [I|[I|[]]]; auto.
    - right. exists h1, (h2 ++ [c]). split; [now rewrite <- app_assoc|]. split; [|exact B]. intros I. apply in_app_or in I. destruct I as [I|[I|[]]]; auto. }
  destruct c as [k' key' v'|k' key'|k'].
  - apply OTHER; [discriminate|]. cbn [do_call]. unfold set_val. destruct (sm_find _ _); reflexivity.
  - apply OTHER; [discriminate|reflexivity].
  - destruct (kind_dec k' k) as [->|N]; [|apply OTHER; [congruence|]; cbn [do_call]; destruct (get_keys_spec (do_calls obj_new h) k') as (_ & _ & _ & D); now apply D].
    right. exists h, []. split; [reflexivity|]. split; [auto|]. cbn [do_call]. destruct (get_keys_spec (do_calls obj_new h) k) as (_ & _ & C & _). rewrite C. apply map_keys.
Qed.
End W.
