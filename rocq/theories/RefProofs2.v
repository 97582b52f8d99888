From Coq Require Import Arith List String Bool Sorted Lia.
From Verif Require Import Base BaseProofs RefModel RefSpec RefProofs.
Import ListNotations.

Section W.
Context {W : Type}.
Notation obj := (@obj W).
Notation call := (@call W).

(** ** loops *)
Lemma quiet_calls (cs : list call) k : ~ In (CKeys k) cs -> forall o : obj, o_keys (do_calls o cs) k = o_keys o k /\ o_clears (do_calls o cs) k = o_clears o k.
Proof.
  induction cs as [|c cs IH]; intros N o; [split; reflexivity|]. change (do_calls o (c :: cs)) with (do_calls (do_call o c) cs). destruct (IH ltac:(intros I; apply N; now right) (do_call o c)) as [-> ->].
  destruct c as [k' key' v'|k' key'|k']; cbn [do_call]; [unfold set_val; destruct (sm_find _ _); split; reflexivity|split; reflexivity|].
  destruct (get_keys_spec o k') as (_ & _ & _ & D). apply D. intros ->. apply N. now left.
Qed.
Lemma clears_grow (cs : list call) k : forall o : obj, o_clears o k <= o_clears (do_calls o cs) k /\ (In (CKeys k) cs -> o_clears o k < o_clears (do_calls o cs) k).
Proof.
  induction cs as [|c cs IH]; intros o; [split; [apply le_n|intros []]|]. change (do_calls o (c :: cs)) with (do_calls (do_call o c) cs). destruct (IH (do_call o c)) as [A B].
  assert (C : o_clears o k <= o_clears (do_call o c) k /\ (c = CKeys k -> o_clears o k < o_clears (do_call o c) k)).
  { destruct c as [k' key' v'|k' key'|k']; cbn [do_call]; [unfold set_val; destruct (sm_find _ _); split; (discriminate || reflexivity)|split; [lia|discriminate]|].
    destruct (get_keys_spec o k') as (_ & E & _ & D). destruct (kind_dec k' k) as [->|N]; [split; lia|]. destruct (D k N) as [_ ->]. split; [lia|congruence]. }
  destruct C as [C1 C2]. split; [lia|]. intros [->|I]; [specialize (C2 eq_refl); lia|]. apply B in I. lia.
Qed.
Lemma it_loop_ok (body : string -> list call) k g : forall m n i (o : obj), List.length (o_keys o k) - i = m -> m < n -> o_clears o k = g ->
  (forall key, In key (skipn i (o_keys o k)) -> ~ In (CKeys k) (body key)) ->
  it_loop n k g i body o = Some (Ok (skipn i (o_keys o k), do_calls o (flat_map body (skipn i (o_keys o k))))).
Proof.
  induction m as [|m IH]; intros n i o M N G Q; (destruct n as [|n]; [lia|]); cbn [it_loop]; rewrite (proj2 (Nat.eqb_eq _ _) G); cbn [negb].
  - rewrite (proj2 (nth_error_None _ _)) by lia. rewrite skipn_all2 by lia. reflexivity.
  - destruct (nth_error (o_keys o k) i) as [key|] eqn:E; [|apply nth_error_None in E; lia].
    assert (SK : skipn i (o_keys o k) = key :: skipn (S i) (o_keys o k)).
    { clear - E. revert i E. generalize (o_keys o k). induction l as [|x l IH]; intros [|i] E; try discriminate; cbn in *; [congruence|]. now apply IH. }
    rewrite SK in Q |- *. destruct (quiet_calls (body key) k (Q key (or_introl eq_refl)) o) as [K C].
    rewrite (IH n (S i) (do_calls o (body key))); rewrite ?K, ?C; auto; try lia; [|intros x I; apply Q; now right]. cbn [flat_map]. now rewrite calls_app.
Qed.
Lemma it_loop_bad (body : string -> list call) k g : forall m n i (o : obj) key, List.length (o_keys o k) - i = m -> m < n -> o_clears o k = g ->
  In key (skipn i (o_keys o k)) -> In (CKeys k) (body key) -> it_loop n k g i body o = Some UB.
Proof.
  induction m as [|m IH]; intros n i o key M N G I B; (destruct n as [|n]; [lia|]); cbn [it_loop]; rewrite (proj2 (Nat.eqb_eq _ _) G); cbn [negb].
  - rewrite skipn_all2 in I by lia. destruct I.
  - destruct (nth_error (o_keys o k) i) as [x|] eqn:E; [|apply nth_error_None in E; lia].
    assert (SK : skipn i (o_keys o k) = x :: skipn (S i) (o_keys o k)).
    { clear - E. revert i E. generalize (o_keys o k). induction l as [|y l IH]; intros [|i] E; try discriminate; cbn in *; [congruence|]. now apply IH. }
    assert (D : In (CKeys k) (body x) \/ ~ In (CKeys k) (body x)).
    { destruct (existsb (fun c => match c with CKeys j => kind_eqb j k | _ => false end) (body x)) eqn:EX.
      - left. apply existsb_exists in EX. destruct EX as (c & J & Q). destruct c as [| |j]; try discriminate. apply kind_eqb_eq in Q. now subst.
      - right. intros J. assert (existsb (fun c => match c with CKeys j => kind_eqb j k | _ => false end) (body x) = true) by (apply existsb_exists; exists (CKeys k); split; [exact J|apply kind_eqb_refl]). congruence. }
    destruct D as [D|D].
    + destruct (clears_grow (body x) k o) as [_ GR]. specialize (GR D). destruct n as [|n].
      * exfalso. lia.
      * cbn [it_loop]. rewrite (proj2 (Nat.eqb_neq _ _)) by lia. reflexivity.
    + rewrite SK in I. destruct I as [->|I]; [tauto|]. destruct (quiet_calls (body x) k D o) as [K C].
      rewrite (IH n (S i) (do_calls o (body x)) key); rewrite ?K, ?C; auto; lia.
Qed.
(** the index loop: the vector stays as it is if no key is new *)
Lemma same_keys (cs : list call) k : forall o : obj, o_keys o k = sm_keys (o_map o k) -> (forall key v, In (CSet k key v) cs -> In key (sm_keys (o_map o k))) ->
  sm_keys (o_map (do_calls o cs) k) = sm_keys (o_map o k) /\ o_keys (do_calls o cs) k = o_keys o k.
Proof.
  induction cs as [|c cs IH]; intros o E N; [split; reflexivity|]. change (do_calls o (c :: cs)) with (do_calls (do_call o c) cs).
  assert (S : sm_keys (o_map (do_call o c) k) = sm_keys (o_map o k) /\ o_keys (do_call o c) k = o_keys o k).
  { destruct c as [k' key' v'|k' key'|k']; cbn [do_call]; [|split; reflexivity|].
    - unfold set_val. destruct (sm_find key' (o_map o k')) as [n|] eqn:F; [split; reflexivity|]. cbn [o_map o_keys]. split; [|reflexivity]. destruct (kind_dec k' k) as [->|NK]; [|now rewrite upd_other].
      apply sm_find_none_iff in F. destruct F. apply (N key' v'). now left.
    - destruct (get_keys_spec o k') as ([A B] & _ & C & D). rewrite A. split; [reflexivity|]. destruct (kind_dec k' k) as [->|NK]; [congruence|]. now apply D. }
  destruct S as [S1 S2]. destruct (IH (do_call o c)) as [I1 I2]; [congruence|intros key v I; rewrite S1; apply (N key v); now right|]. split; congruence.
Qed.
Lemma ix_loop_ok (body : string -> list call) k : forall m n i (o : obj), List.length (o_keys o k) - i = m -> m < n -> o_keys o k = sm_keys (o_map o k) ->
  (forall key key' v, In key (o_keys o k) -> In (CSet k key' v) (body key) -> In key' (o_keys o k)) ->
  ix_loop n k i body o = Some (skipn i (o_keys o k), do_calls o (flat_map body (skipn i (o_keys o k)))).
Proof.
  induction m as [|m IH]; intros n i o M N G Q; (destruct n as [|n]; [lia|]); cbn [ix_loop].
  - rewrite (proj2 (nth_error_None _ _)) by lia. rewrite skipn_all2 by lia. reflexivity.
  - destruct (nth_error (o_keys o k) i) as [key|] eqn:E; [|apply nth_error_None in E; lia].
    assert (SK : skipn i (o_keys o k) = key :: skipn (S i) (o_keys o k)).
    { clear - E. revert i E. generalize (o_keys o k). induction l as [|x l IH]; intros [|i] E; try discriminate; cbn in *; [congruence|]. now apply IH. }
    rewrite SK. destruct (same_keys (body key) k o G) as [K1 K2]; [intros key' v I; rewrite <- G; apply (Q key key' v); [now apply nth_error_In with i|exact I]|].
    rewrite (IH n (S i) (do_calls o (body key))); rewrite ?K1, ?K2; auto; try lia. cbn [flat_map]. now rewrite calls_app.
Qed.

(** ** threads *)
Lemma take_spec : forall (ts : list (list act)) i a ts', take ts i = Some (a, ts') ->
  exists t, nth i ts [] = a :: t /\ nth i ts' [] = t /\ forall j, j <> i -> nth j ts' [] = nth j ts [].
Proof.
  induction ts as [|t ts IH]; intros i a ts' H; [discriminate|]. destruct i as [|i].
  - destruct t as [|b t]; [discriminate|]. cbn in H. injection H as -> <-. exists t. repeat split. intros [|j] N; [lia|reflexivity].
  - assert (H' : match take ts i with Some (a, r') => Some (a, t :: r') | None => None end = Some (a, ts')) by (destruct t; exact H).
    destruct (take ts i) as [[b r]|] eqn:T; [|discriminate]. injection H' as -> <-. destruct (IH _ _ _ T) as (t' & A & B & C). exists t'. repeat split; auto. intros [|j] N; [reflexivity|]. cbn. apply C. lia.
Qed.
Definition about (k : kind) (a : act) : Prop := match a with AClear j | APush j _ | AShow j => j = k | AGet _ _ => False end.
Definition uses (r : list act) (k : kind) : Prop := exists a, In a r /\ about k a.
Definition okay (o : obj) (r : list act) : Prop := exists p, (forall k key v, ~ In (CSet k key v) p) /\
  (r = flat_map (acts_of o) p \/ exists k suf, r = map (APush k) suf ++ AShow k :: flat_map (acts_of o) p /\ o_keys o k ++ suf = sm_keys (o_map o k)).
Definition fine (o : obj) (ts : list (list act)) : Prop :=
  (forall i, okay o (nth i ts [])) /\ forall i j k, uses (nth i ts []) k -> uses (nth j ts []) k -> i = j.
Definition right_now (o : obj) (s : seen) : Prop :=
  match s with SKeys k l => l = sm_keys (o_map o k) | SVal k key r => r = rbind (get_ref o k key) (deref o) end.
Lemma acts_same (o o' : obj) p : same_maps o' o -> flat_map (acts_of o') p = flat_map (acts_of o) p.
Proof. intros [A _]. induction p as [|c p IH]; [reflexivity|]. cbn [flat_map]. rewrite IH. destruct c; cbn [acts_of]; rewrite ?A; reflexivity. Qed.
Lemma act_maps (o : obj) a : same_maps (fst (do_act o a)) o. Proof. destruct a; split; reflexivity. Qed.
Lemma act_keys (o : obj) a k : ~ about k a -> o_keys (fst (do_act o a)) k = o_keys o k.
Proof. destruct a; cbn [do_act fst about clear push o_keys]; intros N; auto; now apply upd_other. Qed.
Lemma okay_other (o o' : obj) r : same_maps o' o -> (forall k, uses r k -> o_keys o' k = o_keys o k) -> okay o r -> okay o' r.
Proof.
  intros S K (p & RO & [E|(k & suf & E & L)]); exists p; (split; [exact RO|]).
  - left. now rewrite (acts_same o o' p S).
  - right. exists k, suf. rewrite (acts_same o o' p S). split; [exact E|]. destruct S as [S1 _]. rewrite S1, <- L. f_equal. apply K. exists (AShow k). split; [|reflexivity]. rewrite E. apply in_or_app. right. now left.
Qed.
Lemma okay_step (o : obj) a t : okay o (a :: t) -> okay (fst (do_act o a)) t /\ forall s, In s (snd (do_act o a)) -> right_now o s.
Proof.
  intros (p & RO & [E|(k & suf & E & L)]).
  - revert E. induction p as [|c p IH]; [discriminate|]. intros E. assert (RO' : forall k key v, ~ In (CSet k key v) p) by (intros k key v I; apply (RO k key v); now right).
    destruct c as [k key v|k key|k]; cbn [flat_map acts_of List.app] in E.
    + exfalso. apply (RO k key v). now left.
    + injection E as -> ->. cbn [do_act fst snd]. split; [exists p; auto|]. intros s [<-|[]]. reflexivity.
    + injection E as -> ->. cbn [do_act fst snd]. split; [|intros s []]. exists p. split; [exact RO'|]. right. exists k, (sm_keys (o_map o k)). rewrite <- app_assoc. cbn [List.app].
      assert (S : same_maps (clear o k) o) by (split; reflexivity). rewrite (acts_same o _ p S). split; [reflexivity|]. cbn [clear o_keys o_map]. now rewrite upd_same.
  - destruct suf as [|x suf]; cbn [map List.app] in E; injection E as -> ->.
    + cbn [do_act fst snd]. split; [exists p; auto|]. intros s [<-|[]]. cbn. rewrite <- L. now rewrite app_nil_r.
    + cbn [do_act fst snd]. split; [|intros s []]. exists p. split; [exact RO|]. right. exists k, suf. assert (S : same_maps (push o k x) o) by (split; reflexivity). rewrite (acts_same o _ p S). split; [reflexivity|].
      cbn [push o_keys o_map]. rewrite upd_same, <- L, <- app_assoc. reflexivity.
Qed.
Lemma run_fine sched : forall (o : obj) ts, fine o ts -> forall i s, In (i, s) (snd (run o ts sched)) -> right_now o s.
Proof.
  induction sched as [|x sched IH]; intros o ts [F1 F2] i s I; [destruct I|]. cbn [run] in I. destruct (take ts x) as [[a ts']|] eqn:T; [|now apply (IH o ts (conj F1 F2) i s)].
  destruct (take_spec _ _ _ _ T) as (t & A & B & C). pose proof (F1 x) as OK. rewrite A in OK. destruct (okay_step o a t OK) as [OK' SN].
  pose proof (act_maps o a) as SM. pose proof (act_keys o a) as AK. destruct (do_act o a) as [o' sn]. cbn [fst snd] in *.
  assert (SUB : forall j k, uses (nth j ts' []) k -> uses (nth j ts []) k).
  { intros j k (b & J1 & J2). destruct (Nat.eq_dec j x) as [->|N]; [|rewrite (C j N) in J1; now exists b]. exists b. split; [rewrite A; right; now rewrite B in J1|exact J2]. }
  assert (F' : fine o' ts').
  { split; [|intros j l k J1 J2; apply (F2 j l k); auto]. intros j. destruct (Nat.eq_dec j x) as [->|N]; [now rewrite B|]. rewrite (C j N). apply okay_other with o; auto.
    intros k U. apply AK. intros AB. apply N. apply (F2 j x k U). exists a. split; [rewrite A; now left|exact AB]. }
  destruct (run o' ts' sched) as [[o'' ts''] l] eqn:R. cbn [snd] in I. apply in_app_or in I. destruct I as [I|I].
  - apply in_map_iff in I. destruct I as (s' & E & I). injection E as <- <-. now apply SN.
  - specialize (IH o' ts' F' i s). rewrite R in IH. specialize (IH I). destruct SM as [S1 S2]. destruct s as [k l'|k key r]; cbn in *; [now rewrite S1 in IH|]. unfold get_ref, deref in *. now rewrite S1, S2 in IH.
Qed.
Lemma nth_threads (o : obj) ps i : nth i (threads o ps) [] = flat_map (acts_of o) (nth i ps []).
Proof. unfold threads. rewrite <- (map_nth (fun p => flat_map (acts_of o) p)). reflexivity. Qed.
Lemma uses_calls (o : obj) p k : uses (flat_map (acts_of o) p) k -> In (CKeys k) p.
Proof.
  intros (a & I & AB). apply in_flat_map in I. destruct I as (c & J & I). destruct c as [j key v|j key|j]; cbn [acts_of] in I; [destruct I|destruct I as [<-|[]]; destruct AB|].
  assert (j = k); [|now subst]. destruct I as [<-|I]; [exact AB|]. apply in_app_or in I. destruct I as [I|[<-|[]]]; [|exact AB]. apply in_map_iff in I. destruct I as (x & <- & _). exact AB.
Qed.
Lemma threads_fine (o : obj) ps : (forall p, In p ps -> reads_only p) -> (forall i j k, In (CKeys k) (nth i ps []) -> In (CKeys k) (nth j ps []) -> i = j) -> fine o (threads o ps).
Proof.
  intros RO D. split.
  - intros i. rewrite nth_threads. exists (nth i ps []). split; [|now left]. destruct (nth_in_or_default i ps []) as [I| ->]; [now apply RO|intros k key v []].
  - intros i j k. rewrite !nth_threads. intros U V. apply uses_calls in U, V. now apply (D i j k).
Qed.
(** both clear, then both fill *)
Lemma take_S (u : list act) r i : take (u :: r) (S i) = match take r i with Some (a, r') => Some (a, u :: r') | None => None end.
Proof. destruct u; reflexivity. Qed.
Lemma clear_run k (o : obj) u v : run o [AClear k :: u; AClear k :: v] [0; 1] = (clear (clear o k) k, [u; v], []).
Proof. cbn [run]. change (take [AClear k :: u; AClear k :: v] 0) with (Some (AClear k, [u; AClear k :: v])). cbn [do_act]. rewrite take_S. cbn [take do_act map List.app]. reflexivity. Qed.
Lemma push_run k l : forall (o : obj) r u, run o [map (APush k) l ++ r; u] (repeat 0 (List.length l)) = (fold_left (fun o key => push o k key) l o, [r; u], []).
Proof.
  induction l as [|x l IH]; intros o r u; [reflexivity|]. cbn [List.length repeat run map List.app take do_act]. rewrite IH. reflexivity.
Qed.
Lemma push_run1 k l : forall (o : obj) r u, run o [u; map (APush k) l ++ r] (repeat 1 (List.length l)) = (fold_left (fun o key => push o k key) l o, [u; r], []).
Proof.
  induction l as [|x l IH]; intros o r u; [reflexivity|]. cbn [List.length repeat run map List.app take do_act]. destruct u; cbn [take do_act]; rewrite IH; reflexivity.
Qed.
Lemma run_app s1 : forall s2 (o : obj) ts, run o ts (s1 ++ s2) = let '(o', ts', l) := run o ts s1 in let '(o'', ts'', l') := run o' ts' s2 in (o'', ts'', l ++ l').
Proof.
  induction s1 as [|i s1 IH]; intros s2 o ts; cbn [List.app run]; [destruct (run o ts s2) as [[? ?] ?]; reflexivity|]. destruct (take ts i) as [[a ts']|]; [|apply IH].
  destruct (do_act o a) as [o' s]. rewrite IH. destruct (run o' ts' s1) as [[o1 t1] l1]. destruct (run o1 t1 s2) as [[o2 t2] l2]. now rewrite app_assoc.
Qed.
Lemma twice (o : obj) k : exists sched, In (0, SKeys k (sm_keys (o_map o k) ++ sm_keys (o_map o k))) (snd (run o (threads o [[CKeys k]; [CKeys k]]) sched)).
Proof.
  set (L := sm_keys (o_map o k)). exists ([0; 1] ++ repeat 0 (List.length L) ++ repeat 1 (List.length L) ++ [0]).
  assert (T : threads o [[CKeys k]; [CKeys k]] = [AClear k :: map (APush k) L ++ [AShow k]; AClear k :: map (APush k) L ++ [AShow k]]) by (cbn; rewrite !app_nil_r; reflexivity). rewrite T.
  rewrite (run_app [0; 1]), clear_run. cbv beta iota.
  rewrite (run_app (repeat 0 _)), push_run. cbv beta iota. rewrite (run_app (repeat 1 _)), push_run1. cbv beta iota. cbn [run take do_act map List.app snd].
  left. do 2 f_equal. destruct (fold_push k L (clear (clear o k) k)) as (_ & _ & C & _).
  destruct (fold_push k L (fold_left (fun o key => push o k key) L (clear (clear o k) k))) as (_ & _ & D & _). rewrite D, C. cbn [clear o_keys]. now rewrite !upd_same.
Qed.
End W.
