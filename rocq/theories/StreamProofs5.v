(** Streams: exchanged documents, arbitrary input, turns, what goes wrong. *)
From Coq Require Import ZArith List String Ascii Bool Lia.
From Verif Require Import Base XmlModel XmlSpec XmlProofs XmlProofs2 StreamModel StreamSpec StreamProofs StreamProofs2 StreamProofs3 StreamProofs4.
Import ListNotations.
Open Scope Z_scope.

(** ** documents *)
Lemma spaces_ws w : all_bytes space_byte w -> all_ws w = true.
Proof.
  induction w as [|c w IH]; intros A; [reflexivity|]. cbn [all_ws]. rewrite (space_ws c) by (apply A; apply contains_byte_here). apply IH. intros d (a & b & ->). apply A. exists (String c a), b. reflexivity.
Qed.
Lemma spaces_prolog w p : all_bytes space_byte w -> prolog p -> prolog (w +++ p).
Proof.
  intros A P. induction w as [|c w IH]; [exact P|]. cbn [String.append]. constructor; [apply A; apply contains_byte_here|]. apply IH. intros d (a & b & ->). apply A. exists (String c a), b. reflexivity.
Qed.
Lemma rends_lead w l v : all_ws w = true -> rends l v -> (forall x, In x l -> is_text x = false) -> rends l (w +++ v).
Proof.
  intros A R T. destruct R as [w' A'|w' x u l v A' R RL|w' s l v].
  - constructor. now rewrite all_ws_app, A, A'.
  - rewrite <- sapp_assoc. constructor; auto. now rewrite all_ws_app, A, A'.
  - exfalso. specialize (T _ (or_introl eq_refl)). discriminate.
Qed.
Definition comments (l : list xnode) : Prop := forall x, In x l -> exists s, x = XComment s.
Lemma comments_ntext l root : comments l -> is_elem root = true -> forall x, In x (l ++ [root]) -> is_text x = false.
Proof. intros C E x I. apply in_app_or in I. destruct I as [I|[<-|[]]]; [destruct (C x I) as [s ->]; reflexivity|]. destruct root; try discriminate; reflexivity. Qed.
Lemma comment_parts s : streamable (XComment s) -> no_nul s /\ ~ contains "-->" ("--" +++ s) /\ rend (XComment s) ("<!--" +++ s +++ "-->").
Proof. intros [W S]. inversion W; subst. inversion S; subst. repeat split; auto. now constructor. Qed.
Lemma out_pre pre root : comments pre -> (forall x, In x pre -> streamable x) -> rend root (out_node root) ->
  prolog (out_nodes pre) /\ rends (pre ++ [root]) (out_nodes pre +++ out_node root).
Proof.
  induction pre as [|x pre IH]; intros C S R; cbn [out_nodes List.app].
  - split; [constructor|]. cbn [String.append]. rewrite <- (sapp_nil_r (out_node root)). apply (R_node ""); auto. now constructor.
  - destruct IH as [IH1 IH2]; auto; [intros y I; apply C; now right|intros y I; apply S; now right|]. destruct (C x (or_introl eq_refl)) as [s ->].
    destruct (comment_parts s (S _ (or_introl eq_refl))) as (N & CC & RC). cbn [out_node]. split.
    + rewrite !sapp_assoc. now apply P_comment.
    + rewrite sapp_assoc. now apply (R_node "").
Qed.
Lemma out_doc_parts pre root post : comments pre -> is_elem root = true -> out_doc (pre ++ root :: post) = out_nodes pre +++ out_node root.
Proof.
  induction pre as [|x pre IH]; intros C E; cbn [List.app out_doc out_nodes].
  - rewrite E. now rewrite sapp_nil_r.
  - destruct (C x (or_introl eq_refl)) as [s ->] eqn:Q. cbn [is_elem]. rewrite IH; auto; [now rewrite sapp_assoc|]. intros y I. apply C. now right.
Qed.
Lemma elem_ntext x : is_elem x = true -> is_text x = false. Proof. now destruct x. Qed.
Theorem exchange w pre root post n r : all_bytes space_byte w -> comments pre -> is_elem root = true -> (forall x, In x (pre ++ [root]) -> streamable x) ->
  (String.length (w +++ out_doc (pre ++ root :: post) +++ r) < n)%nat ->
  stream_in n (w +++ out_doc (pre ++ root :: post) +++ r) = SOk (pre ++ [root], false, r, true).
Proof.
  intros A C E S L. rewrite out_doc_parts in L |- * by assumption. assert (SR : streamable root) by (apply S; apply in_or_app; right; now left). destruct SR as [WR SC].
  pose proof (out_rend root WR (elem_ntext root E)) as R. destruct (out_pre pre root C) as [P RL]; [intros x I; apply S; apply in_or_app; now left|exact R|].
  assert (E' : w +++ (out_nodes pre +++ out_node root) +++ r = (w +++ out_nodes pre) +++ out_node root +++ r) by (rewrite !sapp_assoc; reflexivity). rewrite E' in L |- *.
  rewrite (stream_prolog _ root); auto; [|now apply spaces_prolog]. rewrite sapp_assoc, (parse_doc_rends (pre ++ [root])).
  - reflexivity.
  - apply rends_lead; [now apply spaces_ws|exact RL|now apply comments_ntext].
  - now apply comments_ntext.
  - destruct pre; discriminate.
Qed.
Lemma nls_space : all_bytes space_byte nls.
Proof. intros c (a & b & E). unfold nls in E. destruct a as [|d [|? a]]; try discriminate. injection E as <- _. cbv. left. split; discriminate. Qed.
Lemma print_pre pre root : is_elem root = true -> comments pre -> (forall x, In x pre -> streamable x) -> rend root (body 0 root) ->
  prolog (print_doc pre) /\ rends (pre ++ [root]) (print_doc pre +++ body 0 root).
Proof.
  intros EL. induction pre as [|x pre IH]; intros C S R; cbn [print_doc List.app].
  - split; [constructor|]. cbn [String.append]. rewrite <- (sapp_nil_r (body 0 root)). apply (R_node ""); auto. now constructor.
  - destruct IH as [IH1 IH2]; auto; [intros y I; apply C; now right|intros y I; apply S; now right|]. destruct (C x (or_introl eq_refl)) as [s ->].
    destruct (comment_parts s (S _ (or_introl eq_refl))) as (N & CC & RC). cbn [print_node indent]. rewrite c_str_id by exact N. split.
    + change (prolog (("<!--" +++ s +++ "-->") +++ nls +++ print_doc pre)). rewrite !sapp_assoc. apply P_comment; auto. apply spaces_prolog; [apply nls_space|exact IH1].
    + change (rends (XComment s :: pre ++ [root]) ((("<!--" +++ s +++ "-->") +++ nls +++ print_doc pre) +++ body 0 root)). rewrite sapp_assoc. apply (R_node ""); auto.
      rewrite sapp_assoc. apply rends_lead; auto. apply comments_ntext; auto. intros y I. apply C. now right.
Qed.
Lemma print_doc_app a b : print_doc (a ++ b) = print_doc a +++ print_doc b.
Proof. induction a as [|x a IH]; [reflexivity|]. cbn [List.app print_doc]. rewrite IH, !sapp_assoc. reflexivity. Qed.
Theorem exchange_print w pre root post n r : all_bytes space_byte w -> comments pre -> is_elem root = true -> (forall x, In x (pre ++ [root]) -> streamable x) ->
  (String.length (w +++ print_doc (pre ++ root :: post) +++ r) < n)%nat ->
  stream_in n (w +++ print_doc (pre ++ root :: post) +++ r) = SOk (pre ++ [root], false, nls +++ print_doc post +++ r, true).
Proof.
  intros A C E S L. assert (SR : streamable root) by (apply S; apply in_or_app; right; now left). destruct SR as [WR SC].
  pose proof (print_rend root WR (elem_ntext root E) 0) as R. destruct (print_pre pre root E C) as [P RL]; [intros x I; apply S; apply in_or_app; now left|exact R|].
  assert (E' : w +++ print_doc (pre ++ root :: post) +++ r = (w +++ print_doc pre) +++ body 0 root +++ (nls +++ print_doc post +++ r)).
  { rewrite print_doc_app. cbn [print_doc]. rewrite print_node_body by (auto; now apply elem_ntext). change (indent 0) with ""%string. rewrite !sapp_assoc. reflexivity. }
  rewrite E' in L |- *. rewrite (stream_prolog _ root); auto; [|now apply spaces_prolog]. rewrite sapp_assoc, (parse_doc_rends (pre ++ [root])).
  - reflexivity.
  - apply rends_lead; [now apply spaces_ws|exact RL|now apply comments_ntext].
  - now apply comments_ntext.
  - destruct pre; discriminate.
Qed.

(** ** arbitrary input without a zero byte *)
Definition moves (t r : string) (i : ist) : Prop := exists u, r = u +++ i_rest i /\ i_tag i = srev u t.
Lemma moves_refl t r g : moves t r (mkI t r g). Proof. exists ""%string. split; reflexivity. Qed.
Lemma moves_trans t r i j : moves t r i -> moves (i_tag i) (i_rest i) j -> moves t r j.
Proof. intros (u & E1 & E2) (v & F1 & F2). exists (u +++ v). rewrite srev_cat, <- E2. split; [|exact F2]. rewrite sapp_assoc, <- F1. exact E1. Qed.
Lemma moves_step c t r i : moves (String c t) r i -> moves t (String c r) i.
Proof. intros (u & E1 & E2). exists (String c u). split; [cbn [String.append]; now rewrite <- E1|exact E2]. Qed.
Lemma moves_nul t r i : no_nul r -> moves t r i -> no_nul (i_rest i).
Proof. intros N (u & E & _) c (a & b & F). apply N. exists (u +++ a), b. rewrite E, F, sapp_assoc. reflexivity. Qed.
Lemma moves_len t r i : moves t r i -> (String.length (i_rest i) <= String.length r)%nat.
Proof. intros (u & E & _). apply (f_equal String.length) in E. rewrite slen_app in E. lia. Qed.
Lemma nul_head c r : no_nul (String c r) -> isnul c = false /\ no_nul r.
Proof. intros N. destruct (no_nul_tail _ _ N) as [A B]. split; [unfold isnul; now apply Z.eqb_neq|exact B]. Qed.
Lemma ws_moves r : forall t, moves t r (ws_in t r).
Proof. induction r as [|c r IH]; intros t; cbn [ws_in]; [apply moves_refl|]. destruct (_ || _); [apply moves_refl|]. apply moves_step, IH. Qed.
Lemma text_moves r : forall t, moves t r (text_in t r).
Proof. induction r as [|c r IH]; intros t; cbn [text_in]; [apply moves_refl|]. destruct (ceqb _ _); [apply moves_refl|]. destruct (isnul _); [apply moves_refl|]. apply moves_step, IH. Qed.
Lemma stream_to_moves r : forall t, moves t r (fst (stream_to ltc t r)).
Proof. induction r as [|c r IH]; intros t; cbn [stream_to]; [apply moves_refl|]. destruct (ceqb _ _); [apply moves_refl|]. destruct (isnul _); [apply moves_refl|]. apply moves_step, IH. Qed.
Lemma to_gt_moves r : no_nul r -> forall t, moves t r (fst (to_gt t r)) /\ (snd (to_gt t r) = true -> String.length (i_rest (fst (to_gt t r))) < String.length r)%nat.
Proof.
  induction r as [|c r IH]; intros N t; cbn [to_gt]; [split; [apply moves_refl|discriminate]|]. destruct (nul_head _ _ N) as [H N']. rewrite H. destruct (ceqb _ _).
  - split; [apply moves_step, moves_refl|]. cbn [fst i_rest String.length]. lia.
  - destruct (IH N' (String c t)) as [A B]. split; [now apply moves_step|]. intros Q. specialize (B Q). cbn [String.length]. lia.
Qed.
Lemma comment_moves r : no_nul r -> forall t, moves t r (comment_in t r).
Proof.
  induction r as [|c r IH]; intros N t; cbn [comment_in]; [apply moves_refl|]. destruct (nul_head _ _ N) as [H N']. rewrite H. destruct (_ && _); [apply moves_step, moves_refl|]. apply moves_step, IH, N'.
Qed.
Lemma tag_moves r : forall f cl t p j q a b, tag_in f cl t p r = (j, q, a, b) -> moves t r j.
Proof.
  induction r as [|c r IH]; intros f cl t p j q a b; cbn [tag_in]; [intros Q; injection Q as <- _ _ _; apply moves_refl|].
  destruct (isnul c); [intros Q; injection Q as <- _ _ _; apply moves_refl|]. destruct (ceqb c gtc); [intros Q; injection Q as <- _ _ _; apply moves_refl|].
  destruct (_ && _); intros Q; apply IH in Q; now apply moves_step.
Qed.
Lemma doc_tag_moves r : no_nul r -> forall t p, moves t r (fst (doc_tag_in t p r)).
Proof.
  induction r as [|c r IH]; intros N t p; cbn [doc_tag_in]; [apply moves_refl|]. destruct (nul_head _ _ N) as [H N']. rewrite H. destruct (ceqb _ _); [apply moves_refl|]. apply moves_step, IH, N'.
Qed.
Definition runs (n : nat) (t r : string) (o : sres ist) : Prop := (exists i, o = SOk i /\ moves t r i) \/ (o = SFuel /\ (n <= String.length r)%nat).
Lemma runs_after t r i n m o : moves t r i -> runs m (i_tag i) (i_rest i) o -> (String.length (i_rest i) < String.length r)%nat -> n = S m -> runs n t r o.
Proof. intros M [(j & -> & MJ)|[-> L]] LT ->; [left; exists j; split; [reflexivity|now apply moves_trans with i]|right; split; [reflexivity|lia]]. Qed.
Lemma elem_runs n : forall t r, no_nul r -> runs n t r (elem_in n t r) /\ runs n t r (content_in n t r).
Proof.
  induction n as [|n IH]; intros t r N; [split; right; split; (reflexivity || lia)|]. split; cbn [elem_in content_in].
  - destruct (to_gt_moves r N t) as [M L]. destruct (to_gt t r) as [i b]. cbn [fst snd] in *. assert (OK : runs (S n) t r (SOk i)) by (left; eauto).
    destruct b; [|exact OK]. destruct (Nat.ltb _ _); [exact OK|].
    assert (R : runs (S n) t r (content_in n (i_tag i) (i_rest i))) by (apply runs_after with i n; auto; apply IH; now apply moves_nul with t r).
    destruct (i_tag i) as [|a [|c z]]; auto. destruct (ceqb c "/"); auto.
  - pose proof (ws_moves r t) as M. destruct (ws_in t r) as [t1 r1 g1]. cbn [i_good i_tag i_rest] in *. destruct g1; cbn [negb]; [|left; eauto].
    pose proof (moves_nul _ _ _ N M) as N1. pose proof (moves_len _ _ _ M) as L1. cbn [i_rest] in N1, L1.
    destruct r1 as [|c r1]; [left; eexists; split; [reflexivity|]; destruct M as (u & A & B); exists u; auto|]. destruct (nul_head _ _ N1) as [HC N2].
    destruct (ceqb c ltc) eqn:EC; cbn [negb].
    + destruct (tag_in false false t1 "" (String c r1)) as [[[j p] a] b] eqn:TI. pose proof (tag_moves _ _ _ _ _ _ _ _ _ TI) as MJ. pose proof (moves_trans _ _ _ _ M MJ) as MT.
      assert (LJ : (String.length (i_rest j) < String.length r)%nat).
      { cbn [tag_in] in TI. rewrite HC in TI. apply ceqb_true in EC. subst c. change (ceqb ltc gtc) with false in TI. cbv iota in TI. change (ceqb ltc ltc) with true in TI. cbn [negb andb] in TI.
        apply tag_moves in TI. apply moves_len in TI. cbn [String.length] in L1. lia. }
      pose proof (moves_nul _ _ _ N MT) as NJ. assert (OK : runs (S n) t r (SOk j)) by (left; eauto).
      assert (NEXT : forall i, moves (i_tag j) (i_rest j) i -> runs (S n) t r (if i_good i then content_in n (i_tag i) (i_rest i) else SOk i)).
      { intros i MI. pose proof (moves_trans _ _ _ _ MT MI) as MI'. destruct (i_good i); [|left; eauto]. apply runs_after with i n; auto; [apply IH; now apply moves_nul with t r|]. apply moves_len in MI. lia. }
      destruct a; [|exact OK]. destruct b.
      * left. eexists. split; [reflexivity|]. apply moves_trans with j; [exact MT|]. now apply to_gt_moves.
      * destruct (Identify (srev p "")) as [k|]; [|exact OK]. destruct k; cbv zeta; try (apply NEXT; now apply to_gt_moves).
        -- apply NEXT. now apply comment_moves.
        -- destruct (IH (i_tag j) (i_rest j) NJ) as [[(i & -> & MI)|[-> LE]] _]; [now apply NEXT|]. right. split; [reflexivity|lia].
    + pose proof (text_moves (String c r1) t1) as MJ. pose proof (moves_trans _ _ _ _ M MJ) as MT. set (j := text_in t1 (String c r1)) in *.
      assert (LJ : (String.length (i_rest j) < String.length r)%nat).
      { unfold j. cbn [text_in]. rewrite EC, HC. pose proof (moves_len _ _ _ (text_moves r1 (String c t1))) as Q. cbn [String.length] in L1. lia. }
      destruct (i_good j); [|left; eauto]. apply runs_after with j n; auto. apply IH. now apply moves_nul with t r.
Qed.
Lemma doc_runs n : forall t r, no_nul r -> runs n t r (doc_in n t r).
Proof.
  induction n as [|n IH]; intros t r N; [right; split; [reflexivity|lia]|]. cbn [doc_in].
  pose proof (doc_tag_moves r N t "") as M. destruct (doc_tag_in t "" r) as [j p] eqn:D. cbn [fst] in M. assert (OK : runs (S n) t r (SOk j)) by (left; eauto).
  pose proof (moves_nul _ _ _ N M) as NJ. pose proof (moves_len _ _ _ M) as LJ.
  destruct (i_good j) eqn:G; cbn [negb]; [|exact OK].
  assert (LT : Identify (srev p "") <> None -> (String.length (i_rest j) < String.length r)%nat).
  { intros Q. destruct r as [|c r]; cbn [doc_tag_in] in D.
    - injection D as <- <-. now destruct Q.
    - destruct (ceqb c gtc); [injection D as <- <-; now destruct Q|]. destruct (nul_head _ _ N) as [HC N']. rewrite HC in D. pose proof (doc_tag_moves r N' (String c t) (String c "")) as M'. rewrite D in M'. cbn [fst] in M'.
      apply moves_len in M'. cbn [String.length]. lia. }
  destruct (Identify (srev p "")) as [k|]; [|exact OK]. specialize (LT ltac:(discriminate)).
  assert (NEXT : forall i, moves (i_tag j) (i_rest j) i -> runs (S n) t r (if i_good i then doc_in n (i_tag i) (i_rest i) else SOk i)).
  { intros i MI. pose proof (moves_trans _ _ _ _ M MI) as MI'. destruct (i_good i); [|left; eauto]. apply runs_after with i n; auto; [apply IH; now apply moves_nul with t r|]. apply moves_len in MI. lia. }
  destruct k; cbv zeta; try (apply NEXT; now apply to_gt_moves).
  - apply NEXT. now apply comment_moves.
  - apply runs_after with j n; auto. now apply elem_runs.
Qed.
Lemma parse_doc_fuel s : parse_doc s <> PFuel.
Proof.
  destruct s as [|c s]; [discriminate|]. intros H. apply (load_terminates (String c s)). unfold LoadFile. cbn [String.eqb]. now rewrite H.
Qed.
Lemma moves_all s i : moves "" s i -> s = srev (i_tag i) "" +++ i_rest i.
Proof. intros (u & E & ->). rewrite srev_twice. exact E. Qed.
Theorem nothing_lost n s l er r g : no_nul s -> stream_in n s = SOk (l, er, r, g) -> exists u, s = u +++ r /\ parse_doc u = POk (l, er).
Proof.
  intros N H. unfold stream_in in H. pose proof (stream_to_moves s "") as M. destruct (stream_to ltc "" s) as [i b]. cbn [fst] in M.
  assert (P : forall j, moves "" s j -> match parse_doc (srev (i_tag j) "") with POk (l, er) => SOk (l, er, i_rest j, i_good j) | PFuel => SFuel | PUB => SUB end = SOk (l, er, r, g) ->
    exists u, s = u +++ r /\ parse_doc u = POk (l, er)).
  { intros j MJ. destruct (parse_doc (srev (i_tag j) "")) as [[l' er']| |] eqn:PD; try discriminate. intros Q. injection Q as -> -> <- <-. exists (srev (i_tag j) ""). split; [now apply moves_all|exact PD]. }
  destruct b; [|now apply (P i)]. destruct (doc_runs n (i_tag i) (i_rest i)) as [(j & E & MJ)|[E _]]; [now apply moves_nul with ""%string s| |rewrite E in H; discriminate].
  rewrite E in H. apply (P j); [now apply moves_trans with i|exact H].
Qed.
Theorem reading_ends n s : no_nul s -> (String.length s < n)%nat -> stream_in n s <> SFuel.
Proof.
  intros N L. unfold stream_in. pose proof (stream_to_moves s "") as M. destruct (stream_to ltc "" s) as [i b]. cbn [fst] in M.
  assert (P : forall j, match parse_doc (srev (i_tag j) "") with POk (l, er) => SOk (l, er, i_rest j, i_good j) | PFuel => SFuel | PUB => SUB end <> SFuel).
  { intros j. pose proof (parse_doc_fuel (srev (i_tag j) "")). destruct (parse_doc (srev (i_tag j) "")) as [[l' er']| |]; congruence. }
  destruct b; [|apply P]. pose proof (moves_len _ _ _ M) as LI. destruct (doc_runs n (i_tag i) (i_rest i)) as [(j & E & MJ)|[E LE]]; [now apply moves_nul with ""%string s| |lia]. rewrite E. apply P.
Qed.

(** ** turns *)
Lemma content_more n : forall t r i, (elem_in n t r = SOk i -> elem_in (S n) t r = SOk i) /\ (content_in n t r = SOk i -> content_in (S n) t r = SOk i).
Proof.
  induction n as [|n IH]; intros t r i; [split; discriminate|]. split.
  - cbn [elem_in]. fold content_in. destruct (to_gt t r) as [j b]. destruct b; auto. destruct (Nat.ltb _ _); auto. destruct (i_tag j) as [|a [|c z]]; auto. destruct (ceqb c "/"); auto. apply IH.
  - remember (S n) as m eqn:EM. intros H. cbn [content_in]. rewrite EM in H. cbn [content_in] in H. destruct (negb (i_good (ws_in t r))); [exact H|].
    destruct (i_rest (ws_in t r)) as [|c z]; [exact H|]. destruct (negb (ceqb c ltc)).
    + destruct (i_good _); [|exact H]. now apply IH.
    + destruct (tag_in _ _ _ _ _) as [[[j p] a] b]. destruct a; [|exact H]. destruct b; [exact H|]. destruct (Identify _) as [k|]; [|exact H].
      assert (NEXT : forall q, (if i_good q then content_in n (i_tag q) (i_rest q) else SOk q) = SOk i -> (if i_good q then content_in m (i_tag q) (i_rest q) else SOk q) = SOk i).
      { intros q. destruct (i_good q); [|auto]. apply IH. }
      destruct k; cbv zeta in *; try (now apply NEXT). destruct (elem_in n (i_tag j) (i_rest j)) as [q| |] eqn:EI; try discriminate.
      apply IH in EI. rewrite EI. now apply NEXT.
Qed.
Lemma doc_more n : forall t r i, doc_in n t r = SOk i -> doc_in (S n) t r = SOk i.
Proof.
  induction n as [|n IH]; intros t r i; [discriminate|]. intros H. remember (S n) as m eqn:EM. cbn [doc_in]. rewrite EM in H. cbn [doc_in] in H.
  destruct (doc_tag_in t "" r) as [j p]. destruct (negb _); [exact H|]. destruct (Identify _) as [k|]; [|exact H].
  destruct k; cbv zeta in *; try (rewrite EM; now apply content_more); destruct (i_good _); auto; now apply IH.
Qed.
Lemma stream_in_shape n s : stream_in n s = SFuel \/ forall m, (n <= m)%nat -> stream_in m s = stream_in n s.
Proof.
  unfold stream_in. destruct (stream_to ltc "" s) as [i b]. destruct b; [|now right]. destruct (doc_in n (i_tag i) (i_rest i)) as [j| |] eqn:D; [right|now left|].
  - intros m LE. assert (E : doc_in m (i_tag i) (i_rest i) = SOk j) by (induction LE; auto using doc_more). now rewrite E.
  - exfalso. revert D. generalize (i_tag i) (i_rest i). assert (NU : forall n t r, elem_in n t r <> SUB /\ content_in n t r <> SUB).
    { clear. induction n as [|n IH]; intros t r; [split; discriminate|]. split; cbn [elem_in content_in].
      - destruct (to_gt t r) as [j b]. destruct b; [|discriminate]. destruct (Nat.ltb _ _); [discriminate|]. destruct (i_tag j) as [|a [|c z]]; try discriminate. destruct (ceqb c "/"); [discriminate|]. apply IH.
      - destruct (negb (i_good (ws_in t r))); [discriminate|]. destruct (i_rest (ws_in t r)) as [|c z]; [discriminate|].
        assert (NEXT : forall q, (if i_good q then content_in n (i_tag q) (i_rest q) else SOk q) <> SUB) by (intros q; destruct (i_good q); [apply IH|discriminate]).
        destruct (negb (ceqb c ltc)); [apply NEXT|]. destruct (tag_in _ _ _ _ _) as [[[j p] a] b]. destruct a; [|discriminate]. destruct b; [discriminate|]. destruct (Identify _) as [k|]; [|discriminate].
        destruct k; cbv zeta; try apply NEXT. destruct (IH (i_tag j) (i_rest j)) as [A _]. destruct (elem_in n (i_tag j) (i_rest j)); [apply NEXT|discriminate|congruence]. }
    clear - NU. induction n as [|n IH]; intros t r; [discriminate|]. cbn [doc_in]. destruct (doc_tag_in t "" r) as [j p]. destruct (negb _); [discriminate|]. destruct (Identify _) as [k|]; [|discriminate].
    destruct k; cbv zeta; try (destruct (i_good _); [apply IH|discriminate]). apply NU.
Qed.

(** ** a zero byte *)
Lemma nul_stuck n : forall t r, content_in n t (String "000"%char r) = SFuel.
Proof. induction n as [|n IH]; intros t r; [reflexivity|]. cbn [content_in]. cbn [ws_in]. change (negb (IsWhiteSpace "000") || isnul "000") with true. cbv iota. cbn [i_good negb i_rest i_tag]. apply IH. Qed.
Theorem nul_never k n w r : xml_name n -> all_bytes space_byte w -> stream_in k ("<" +++ n +++ ">" +++ w +++ String "000"%char r) = SFuel.
Proof.
  intros X A. unfold stream_in. cbn [String.append]. cbn [stream_to]. change (ceqb "<" ltc) with true. cbv iota. cbn [i_tag i_rest].
  pose proof (name_plain n X) as PN. destruct (name_end n X) as (z & c & E & NC).
  assert (D : doc_in k "" (String ltc n +++ String gtc (w +++ String "000"%char r)) = SFuel).
  { destruct k as [|k]; [reflexivity|]. cbn [doc_in]. rewrite doc_tag_app by exact PN. cbv beta iota. cbn [i_good negb i_tag i_rest]. rewrite srev_twice. change (srev "" "" +++ String ltc n) with (String ltc n). rewrite Identify_lt.
    replace (identify (String ltc n)) with KElem by (symmetry; rewrite <- (sapp_nil_r n); now apply ident_elem).
    destruct k as [|k]; [reflexivity|]. rewrite (elem_open (String ltc n) (String ltc z) c); [|rewrite E; reflexivity|exact NC|].
    - rewrite content_ws by now apply spaces_ws. apply nul_stuck.
    - destruct X as (d & t & -> & _). cbn [String.length]. lia. }
  change (String "<" (n +++ String ">" (w +++ String "000"%char r))) with (String ltc n +++ String gtc (w +++ String "000"%char r)). now rewrite D.
Qed.
