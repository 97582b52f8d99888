(** Renderings are read from a stream to their end and no further. *)
From Coq Require Import ZArith List String Ascii Bool Lia.
From Verif Require Import Base XmlModel XmlSpec XmlProofs XmlProofs2 StreamModel StreamSpec StreamProofs.
Import ListNotations.
Open Scope Z_scope.

Fixpoint plain (s : string) : bool := match s with EmptyString => true | String c t => negb (isnul c) && negb (ceqb c gtc) && plain t end.
Lemma plain_app a b : plain (a +++ b) = plain a && plain b.
Proof. induction a as [|c a IH]; [reflexivity|]. cbn [String.append plain]. rewrite IH. now rewrite !andb_assoc. Qed.
Lemma plain_intro s : no_nul s -> ~ contains_byte gtc s -> plain s = true.
Proof.
  induction s as [|c s IH]; intros N G; [reflexivity|]. cbn [plain]. destruct (no_nul_tail _ _ N) as [N1 N2]. rewrite IH; auto.
  - unfold isnul. rewrite (proj2 (Z.eqb_neq _ _) N1). replace (ceqb c gtc) with false; [reflexivity|]. symmetry. apply ceqb_false. intros ->. apply G. apply contains_byte_here.
  - intros H. apply G. now apply contains_byte_cons.
Qed.
Lemma ws_plain s : all_ws s = true -> plain s = true.
Proof.
  induction s as [|c s IH]; intros H; [reflexivity|]. cbn [all_ws plain] in *. apply andb_true_iff in H. destruct H as [H1 H2]. rewrite IH by exact H2.
  destruct c as [[] [] [] [] [] [] [] []]; try discriminate H1; reflexivity.
Qed.
Lemma esc1_plain c : plain (esc1 c) = true /\ has_char ltc (esc1 c) = false.
Proof. destruct c as [[] [] [] [] [] [] [] []]; split; reflexivity. Qed.
Lemma has_char_app c a b : has_char c (a +++ b) = has_char c a || has_char c b.
Proof. induction a as [|d a IH]; [reflexivity|]. cbn [String.append has_char]. rewrite IH. now rewrite orb_assoc. Qed.
Lemma esc_plain s : plain (esc s) = true /\ has_char ltc (esc s) = false.
Proof.
  induction s as [|c s [IH1 IH2]]; [split; reflexivity|]. cbn [esc]. rewrite plain_app, has_char_app, IH1, IH2. destruct (esc1_plain c) as [-> ->]. auto.
Qed.
Lemma name_plain n : xml_name n -> plain n = true.
Proof. intros X. pose proof (xml_name_bytes n X) as B. rewrite <- (esc_name n B). apply esc_plain. Qed.
Lemma attr_plain a : attr_ok a -> plain (print_attr a) = true /\ exists z c, print_attr a = z +++ String c "" /\ c <> "/"%char.
Proof.
  destruct a as [k v]. intros (X & N & C). cbn [fst snd] in *. unfold print_attr. cbn [fst snd]. rewrite (c_str_PutString v C), (c_str_PutString k (name_charref_free k (xml_name_bytes k X))).
  split.
  - rewrite plain_app. cbn [plain]. rewrite plain_app. destruct (esc_plain k) as [-> _], (esc_plain v) as [-> _]. destruct (has_char quot v); reflexivity.
  - exists (esc k +++ String "=" (String (if has_char quot v then apos else quot) (esc v))), (if has_char quot v then apos else quot).
    split; [rewrite sapp_assoc; reflexivity|destruct (has_char quot v); discriminate].
Qed.
Lemma attrs_plain a : Forall attr_ok a -> plain (print_attrs a) = true /\ (a = [] \/ exists z c, print_attrs a = z +++ String c "" /\ c <> "/"%char).
Proof.
  induction 1 as [|x a X F [IH1 IH2]]; [split; [reflexivity|now left]|]. destruct (attr_plain x X) as [P (z & c & E & NC)]. split.
  - cbn [print_attrs]. rewrite !plain_app, P, IH1. reflexivity.
  - right. destruct IH2 as [->|(z2 & c2 & E2 & NC2)].
    + cbn [print_attrs]. rewrite sapp_nil_r, E. exists (" " +++ z), c. split; [now rewrite sapp_assoc|exact NC].
    + cbn [print_attrs]. rewrite E2. exists (" " +++ print_attr x +++ z2), c2. split; [now rewrite !sapp_assoc|exact NC2].
Qed.
Lemma name_end n : xml_name n -> exists z c, n = z +++ String c "" /\ c <> "/"%char.
Proof.
  intros X. pose proof (xml_name_bytes n X) as B. destruct X as (c & t & -> & _). revert c B. induction t as [|d t IH]; intros c B.
  - exists ""%string, c. split; [reflexivity|]. intros ->. specialize (B _ (contains_byte_here _ _)). cbv in B. intuition congruence.
  - destruct (IH d) as (z & e & E & NE); [intros e I; apply B; now apply contains_byte_cons|]. exists (String c z), e. cbn [String.append]. rewrite <- E. auto.
Qed.

Lemma srev_cat a b t : srev (a +++ b) t = srev b (srev a t).
Proof. revert t. induction a as [|c a IH]; intros t; [reflexivity|]. cbn [String.append srev]. apply IH. Qed.
Lemma srev_twice s t : srev (srev s t) "" = srev t "" +++ s.
Proof.
  revert t. induction s as [|c s IH]; intros t; cbn [srev]; [now rewrite sapp_nil_r|]. rewrite IH. cbn [srev]. rewrite srev_app. rewrite sapp_assoc. reflexivity.
Qed.
Lemma srev_len s t : String.length (srev s t) = (String.length s + String.length t)%nat.
Proof. revert t. induction s as [|c s IH]; intros t; [reflexivity|]. cbn [srev String.length]. rewrite IH. cbn [String.length]. lia. Qed.

(** ** the loops *)
Lemma ws_in_app w : all_ws w = true -> forall t y, ws_in t (w +++ y) = ws_in (srev w t) y.
Proof.
  induction w as [|c w IH]; intros A t y; [reflexivity|]. pose proof (ws_plain _ A) as P. cbn [all_ws plain] in *. apply andb_true_iff in A. destruct A as [A1 A2].
  cbn [String.append ws_in srev]. rewrite A1. destruct (isnul c); [discriminate|]. cbn. now apply IH.
Qed.
Lemma ws_in_stop t c y : IsWhiteSpace c = false -> ws_in t (String c y) = mkI t (String c y) true.
Proof. intros H. cbn [ws_in]. now rewrite H. Qed.
Lemma content_ws w : all_ws w = true -> forall n t y, content_in n t (w +++ y) = content_in n (srev w t) y.
Proof. intros A [|n] t y; [reflexivity|]. cbn [content_in]. now rewrite (ws_in_app w A). Qed.
Lemma text_in_app y : plain y = true -> has_char ltc y = false -> forall t z, text_in t (y +++ String ltc z) = mkI (srev y t) (String ltc z) true.
Proof.
  induction y as [|c y IH]; intros P H t z; [reflexivity|]. cbn [plain has_char] in *. apply orb_false_iff in H. destruct H as [H1 H2].
  apply andb_true_iff in P. destruct P as [P P2]. cbn [String.append text_in srev]. assert (E : ceqb c ltc = false) by (apply ceqb_false; apply ceqb_false in H1; congruence). rewrite E.
  destruct (isnul c); [discriminate|]. now apply IH.
Qed.
Lemma ws_text w : all_ws w = true -> has_char ltc w = false.
Proof.
  induction w as [|c w IH]; intros H; [reflexivity|]. cbn [all_ws has_char] in *. apply andb_true_iff in H. destruct H as [H1 H2]. rewrite IH by exact H2.
  destruct c as [[] [] [] [] [] [] [] []]; try discriminate H1; reflexivity.
Qed.
Lemma tag_in_rest q : plain q = true -> forall cl t p y, tag_in true cl t p (q +++ String gtc y) = (mkI (srev q t) (String gtc y) true, srev q p, true, cl).
Proof.
  induction q as [|c q IH]; intros P cl t p y; [reflexivity|]. cbn [plain] in P. apply andb_true_iff in P. destruct P as [P1 P2]. apply andb_true_iff in P1. destruct P1 as [P0 P1].
  cbn [String.append tag_in srev]. destruct (isnul c); [discriminate|]. destruct (ceqb c gtc); [discriminate|]. cbn [negb andb]. now apply IH.
Qed.
Lemma tag_in_app c q t y : plain (String c q) = true -> c <> ltc -> IsWhiteSpace c = false ->
  tag_in false false t "" (String ltc (String c q) +++ String gtc y) = (mkI (srev (String ltc (String c q)) t) (String gtc y) true, srev (String ltc (String c q)) "", true, ceqb c "/").
Proof.
  intros P NL NW. cbn [String.append tag_in]. change (isnul ltc) with false. change (ceqb ltc gtc) with false. change (ceqb ltc ltc) with true. cbn [negb andb].
  pose proof P as P'. cbn [plain] in P. apply andb_true_iff in P. destruct P as [P1 P2]. apply andb_true_iff in P1. destruct P1 as [P0 P1].
  destruct (isnul c); [discriminate|]. destruct (ceqb c gtc); [discriminate|]. rewrite (proj2 (ceqb_false c ltc) NL), NW. cbn [negb andb]. rewrite orb_false_r. now rewrite (tag_in_rest q P2).
Qed.
Lemma doc_tag_app q : plain q = true -> forall t p y, doc_tag_in t p (q +++ String gtc y) = (mkI (srev q t) (String gtc y) true, srev q p).
Proof.
  induction q as [|c q IH]; intros P t p y; [reflexivity|]. cbn [plain] in P. apply andb_true_iff in P. destruct P as [P1 P2]. apply andb_true_iff in P1. destruct P1 as [P0 P1].
  cbn [String.append doc_tag_in srev]. destruct (isnul c); [discriminate|]. destruct (ceqb c gtc); [discriminate|]. now apply IH.
Qed.
Lemma to_gt_app q : plain q = true -> forall t y, to_gt t (q +++ String gtc y) = (mkI (String gtc (srev q t)) y true, true).
Proof.
  induction q as [|c q IH]; intros P t y; [reflexivity|]. cbn [plain] in P. apply andb_true_iff in P. destruct P as [P1 P2]. apply andb_true_iff in P1. destruct P1 as [P0 P1].
  cbn [String.append to_gt srev]. destruct (isnul c); [discriminate|]. destruct (ceqb c gtc); [discriminate|]. now apply IH.
Qed.
Lemma Identify_lt t : Identify (String ltc t) = Some (identify (String ltc t)).
Proof. reflexivity. Qed.

(** ** comments *)
Lemma comment_run r : forall y a b t, no_nul y -> ~ contains "-->" (String a (String b y)) ->
  comment_in (String b (String a t)) (y +++ "-->" +++ r) = mkI (srev (y +++ "-->") (String b (String a t))) r true.
Proof.
  induction y as [|c y IH]; intros a b t N C.
  - cbn [String.append comment_in srev]. change (isnul "-") with false. change (ceqb "-" gtc) with false. change (isnul ">") with false. change (ceqb ">" gtc) with true. cbn [andb two_dashes].
    change (ceqb "-" "-") with true. reflexivity.
  - destruct (no_nul_tail _ _ N) as [N1 N2]. cbn [String.append comment_in srev]. unfold isnul at 1. rewrite (proj2 (Z.eqb_neq _ _) N1).
    assert (E : ceqb c gtc && two_dashes (String b (String a t)) = false).
    { apply not_true_iff_false. intros H. apply andb_true_iff in H. destruct H as [H1 H2]. cbn [two_dashes] in H2. apply andb_true_iff in H2. destruct H2 as [H2 H3].
      apply ceqb_true in H1, H2, H3. subst. apply C. exists ""%string, y. reflexivity. }
    rewrite E. apply IH; [exact N2|]. intros H. apply C. now apply contains_cons.
Qed.
Lemma first_gt s : (plain s = true -> False) -> no_nul s -> exists p q, s = p +++ String gtc q /\ plain p = true.
Proof.
  induction s as [|c s IH]; intros H N; [destruct (H eq_refl)|]. destruct (no_nul_tail _ _ N) as [N1 N2]. destruct (ceqb c gtc) eqn:E.
  - apply ceqb_true in E. subst. exists ""%string, s. auto.
  - destruct IH as (p & q & -> & P); [|exact N2|].
    + intros P. apply H. cbn [plain]. rewrite E, P. unfold isnul. now rewrite (proj2 (Z.eqb_neq _ _) N1).
    + exists (String c p), q. split; [reflexivity|]. cbn [plain]. rewrite E, P. unfold isnul. now rewrite (proj2 (Z.eqb_neq _ _) N1).
Qed.
Lemma last_two : forall p c d, exists z a b, String c (String d p) = z +++ String a (String b "").
Proof.
  induction p as [|e p IH]; intros c d; [exists ""%string, c, d; reflexivity|]. destruct (IH d e) as (z & a & b & E). exists (String c z), a, b. cbn [String.append]. now rewrite <- E.
Qed.
Lemma contains_end u z s : contains u s -> contains u (z +++ s).
Proof. intros (a & b & ->). exists (z +++ a), b. now rewrite sapp_assoc. Qed.
Lemma comment_piece s : no_nul s -> ~ contains "-->" ("--" +++ s) -> exists p q, "<!--" +++ s +++ "-->" = ("<!--" +++ p) +++ String gtc q /\ plain p = true /\
  forall t r, comment_in (srev ("<!--" +++ p) t) (String gtc (q +++ r)) = mkI (srev ("<!--" +++ s +++ "-->") t) r true.
Proof.
  intros N C. destruct (plain s) eqn:P.
  - exists (s +++ "--"), ""%string. split; [cbn [String.append]; now rewrite sapp_assoc|]. split; [rewrite plain_app, P; reflexivity|]. intros t r.
    rewrite (srev_cat "<!--" (s +++ "--")), (srev_cat s "--"). cbn [srev String.append comment_in]. change (isnul gtc) with false. change (ceqb gtc gtc) with true. cbn [two_dashes andb].
    change (ceqb "-" "-") with true. cbn [andb]. rewrite (srev_cat s "-->"). reflexivity.
  - destruct (first_gt s) as (p & q & -> & PP); [congruence|exact N|]. exists p, (q +++ "-->"). split; [cbn [String.append]; now rewrite sapp_assoc|]. split; [exact PP|]. intros t r.
    destruct (last_two p "-" "-") as (z & a & b & E).
    assert (S1 : srev ("<!--" +++ p) t = String b (String a (srev z (srev "<!" t)))).
    { change ("<!--" +++ p) with ("<!" +++ (String "-" (String "-" p))). rewrite E, !srev_cat. reflexivity. }
    rewrite S1. rewrite sapp_assoc. change (String gtc (q +++ "-->" +++ r)) with (String gtc q +++ "-->" +++ r). rewrite comment_run.
    + rewrite <- S1. f_equal. rewrite !srev_cat. reflexivity.
    + intros d I. apply N. destruct I as (x1 & x2 & E1). exists (p +++ x1), x2. rewrite sapp_assoc. now rewrite E1.
    + intros H. apply C. assert (E2 : "--" +++ p +++ String gtc q = z +++ String a (String b (String gtc q))).
      { change ("--" +++ p +++ String gtc q) with (String "-" (String "-" p) +++ String gtc q). rewrite E, sapp_assoc. reflexivity. }
      rewrite E2. now apply contains_end.
Qed.

Lemma SOk_inj {A} (x y : A) : SOk x = SOk y -> x = y. Proof. congruence. Qed.
(** ** trees *)
Definition node_streams (x : xnode) (u : string) : Prop := safe_comments x -> exists c p q,
  u = String ltc (String c p) +++ String gtc q /\ plain (String c p) = true /\ c <> "/"%char /\ c <> ltc /\ IsWhiteSpace c = false /\
  forall n t r, (String.length (String gtc (q +++ r)) < n)%nat ->
    match identify (String ltc (String c p)) with
    | KElem => elem_in n (srev (String ltc (String c p)) t) (String gtc (q +++ r))
    | KComment => SOk (comment_in (srev (String ltc (String c p)) t) (String gtc (q +++ r)))
    | _ => SFuel
    end = SOk (mkI (srev u t) r true).
Definition nodes_stream (l : list xnode) (v : string) : Prop := (forall x, In x l -> safe_comments x) -> forall e n t r, plain e = true ->
  (String.length (v +++ "</" +++ e +++ String gtc r) < n)%nat ->
  content_in n t (v +++ "</" +++ e +++ String gtc r) = SOk (mkI (srev (v +++ "</" +++ e +++ ">") t) r true).

Lemma elem_open p z c t r n : p = z +++ String c "" -> c <> "/"%char -> (2 <= String.length p)%nat ->
  elem_in (S n) (srev p t) (String gtc r) = content_in n (String gtc (srev p t)) r.
Proof.
  intros E NC L. cbn [elem_in to_gt]. change (isnul gtc) with false. change (ceqb gtc gtc) with true. cbv iota. cbn [i_tag i_rest String.length]. rewrite srev_len.
  replace (Nat.ltb (S (String.length p + String.length t)) 3) with false by (symmetry; apply Nat.ltb_ge; lia).
  assert (X : srev p t = String c (srev z t)) by (rewrite E, srev_cat; reflexivity). rewrite X. now rewrite (proj2 (ceqb_false c "/") NC).
Qed.

Lemma rend_streams x u : rend x u -> node_streams x u.
Proof.
  revert x u. apply (rend_mut (fun x u _ => node_streams x u) (fun l v _ => nodes_stream l v)).
  - intros n a X AT ND _. destruct (name_start_not_space n X) as (c & t & E & W & N1 & _). pose proof (name_plain n X) as PN. destruct (attrs_plain a AT) as [PA _].
    assert (NL : c <> ltc). { intros ->. destruct X as (c & t' & E' & B & _). rewrite E in E'. injection E' as <- _. cbv in B. intuition congruence. }
    exists c, (t +++ print_attrs a +++ " /"), ""%string. split; [rewrite E; cbn [String.append]; rewrite !sapp_assoc; reflexivity|].
    assert (PP : plain (String c (t +++ print_attrs a +++ " /")) = true).
    { change (String c (t +++ print_attrs a +++ " /")) with (String c t +++ print_attrs a +++ " /"). rewrite <- E, !plain_app, PN, PA. reflexivity. }
    split; [exact PP|]. split; [exact N1|]. split; [exact NL|]. split; [exact W|]. intros m t0 r L.
    assert (I : identify (String ltc (String c (t +++ print_attrs a +++ " /"))) = KElem).
    { change (String ltc (String c (t +++ print_attrs a +++ " /"))) with (String ltc (String c t +++ print_attrs a +++ " /")). rewrite <- E. now apply ident_elem. }
    rewrite I. destruct m as [|m]; [cbn in L; lia|]. cbn [elem_in to_gt String.append]. change (isnul gtc) with false. change (ceqb gtc gtc) with true. cbv iota. cbn [i_tag i_rest].
    assert (SR : srev (String ltc (String c (t +++ print_attrs a +++ " /"))) t0 = String "/" (srev (String ltc (String c (t +++ print_attrs a +++ " "))) t0)).
    { change (String ltc (String c (t +++ print_attrs a +++ " /"))) with (String ltc (String c t) +++ print_attrs a +++ " " +++ "/").
      change (String ltc (String c (t +++ print_attrs a +++ " "))) with (String ltc (String c t) +++ print_attrs a +++ " "). rewrite !srev_cat. reflexivity. }
    rewrite SR. cbn [String.length]. rewrite srev_len. cbn [String.length].
    match goal with |- context [Nat.ltb ?a ?b] => replace (Nat.ltb a b) with false by (symmetry; apply Nat.ltb_ge; lia) end.
    change (ceqb "/" "/") with true. cbv iota. f_equal. f_equal. rewrite <- SR.
    assert (EU : "<" +++ n +++ print_attrs a +++ " />" = String ltc (String c (t +++ print_attrs a +++ " /")) +++ ">") by (rewrite E; cbn [String.append]; rewrite !sapp_assoc; reflexivity).
    etransitivity; [|exact (f_equal (fun z => srev z t0) (eq_sym EU))]. rewrite (srev_cat _ ">"). reflexivity.
  - intros n a ch u X AT ND R IH SC. destruct (name_start_not_space n X) as (c & t & E & W & N1 & _). pose proof (name_plain n X) as PN. destruct (attrs_plain a AT) as [PA LA].
    assert (NL : c <> ltc). { intros ->. destruct X as (c & t' & E' & B & _). rewrite E in E'. injection E' as <- _. cbv in B. intuition congruence. }
    assert (SC' : forall x, In x ch -> safe_comments x) by (inversion SC; assumption). specialize (IH SC').
    exists c, (t +++ print_attrs a), (u +++ "</" +++ n +++ ">"). split; [rewrite E; cbn [String.append]; rewrite !sapp_assoc; reflexivity|].
    assert (PP : plain (String c (t +++ print_attrs a)) = true).
    { change (String c (t +++ print_attrs a)) with (String c t +++ print_attrs a). rewrite <- E, !plain_app, PN, PA. reflexivity. }
    split; [exact PP|]. split; [exact N1|]. split; [exact NL|]. split; [exact W|]. intros m t0 r L.
    assert (I : identify (String ltc (String c (t +++ print_attrs a))) = KElem).
    { change (String ltc (String c (t +++ print_attrs a))) with (String ltc (String c t +++ print_attrs a)). rewrite <- E. now apply ident_elem. }
    rewrite I. destruct m as [|m]; [cbn in L; lia|].
    assert (LC : exists z d, String ltc (String c (t +++ print_attrs a)) = z +++ String d "" /\ d <> "/"%char).
    { change (String ltc (String c (t +++ print_attrs a))) with ("<" +++ String c t +++ print_attrs a). rewrite <- E. destruct LA as [->|(z & d & E2 & ND2)].
      - destruct (name_end n X) as (z & d & E2 & ND2). exists ("<" +++ z), d. cbn [print_attrs]. rewrite sapp_nil_r, sapp_assoc. now rewrite <- E2.
      - exists ("<" +++ n +++ z), d. rewrite !sapp_assoc. now rewrite <- E2. }
    destruct LC as (z & d & E2 & ND2). rewrite (elem_open _ z d _ _ _ E2 ND2) by (cbn [String.length]; lia).
    rewrite !sapp_assoc. change (">" +++ r) with (String gtc r). rewrite IH.
    + f_equal. f_equal. assert (EU : "<" +++ n +++ print_attrs a +++ ">" +++ u +++ "</" +++ n +++ ">" = String ltc (String c (t +++ print_attrs a)) +++ String gtc (u +++ "</" +++ n +++ ">"))
        by (rewrite E; cbn [String.append]; rewrite !sapp_assoc; reflexivity).
      etransitivity; [|exact (f_equal (fun z => srev z t0) (eq_sym EU))]. rewrite (srev_cat (String ltc (String c (t +++ print_attrs a)))). reflexivity.
    + exact PN.
    + cbn [String.length] in L. rewrite !sapp_assoc in L. change (">" +++ r) with (String gtc r) in L. lia.
  - intros s N A C SC. assert (C' : ~ contains "-->" ("--" +++ s)) by (inversion SC; assumption). destruct (comment_piece s N C') as (p & q & E & P & H).
    exists "!"%char, ("--" +++ p), q. split; [exact E|]. split; [cbn; exact P|]. repeat (split; [discriminate|]). split; [reflexivity|]. intros n t r L.
    change (identify (String ltc (String "!" ("--" +++ p)))) with KComment. cbv iota. now rewrite <- H.
  - intros w A _ e n t r P L. rewrite (content_ws w A). destruct n as [|n]; [lia|]. cbn [content_in]. cbn [String.append]. rewrite ws_in_stop by reflexivity. cbn [i_good i_rest i_tag negb].
    change (ceqb "<" ltc) with true. cbn [negb].
    change (String "<" (String "/" (e +++ String gtc r))) with (String ltc (String "/" e) +++ String gtc r).
    rewrite tag_in_app; [|cbn [plain]; rewrite P; reflexivity|discriminate|reflexivity]. change (ceqb "/" "/") with true. cbv iota. cbn [i_tag i_rest to_gt fst].
    change (isnul gtc) with false. change (ceqb gtc gtc) with true. cbv iota. cbn [fst]. f_equal. f_equal.
    change (String "<" (String "/" (e +++ ">"))) with (String ltc (String "/" e) +++ ">"). rewrite !srev_cat. reflexivity.
  - intros w x u l v A R IHx RL IHl SC e n t r P L. assert (SX : safe_comments x) by (apply SC; now left).
    assert (SL : forall y, In y l -> safe_comments y) by (intros y I; apply SC; now right).
    destruct (IHx SX) as (c & p & q & E & PP & C1 & C2 & C3 & H). rewrite !sapp_assoc in *. rewrite (content_ws w A). destruct n as [|n]; [lia|]. rewrite !slen_app in L.
    assert (LU : String.length u = (2 + String.length p + 1 + String.length q)%nat) by (rewrite E, slen_app; cbn; lia).
    assert (E' : u +++ v +++ "</" +++ e +++ String gtc r = String ltc (String c p) +++ String gtc (q +++ v +++ "</" +++ e +++ String gtc r)) by (rewrite E, !sapp_assoc; reflexivity).
    rewrite E'. assert (WSI : forall t0 y, ws_in t0 (String ltc (String c p) +++ y) = mkI t0 (String ltc (String c p) +++ y) true) by (intros; apply ws_in_stop; reflexivity).
    cbn [content_in]. rewrite WSI. cbn [i_good i_rest i_tag negb]. change (String ltc (String c p) +++ String gtc (q +++ v +++ "</" +++ e +++ String gtc r)) with
      (String ltc (String c p +++ String gtc (q +++ v +++ "</" +++ e +++ String gtc r))) at 1. cbv iota. rewrite (ceqb_refl ltc). cbn [negb].
    rewrite tag_in_app by assumption. rewrite (proj2 (ceqb_false c "/") C1). rewrite srev_twice. change (srev "" "" +++ String ltc (String c p)) with (String ltc (String c p)). cbn [i_tag i_rest].
    rewrite Identify_lt.
    specialize (H n (srev w t) (v +++ "</" +++ e +++ String gtc r)). 
    assert (LH : (String.length (String gtc (q +++ v +++ "</" +++ e +++ String gtc r)) < n)%nat) by (cbn [String.length]; rewrite !slen_app; cbn [String.length] in *; lia).
    specialize (H LH).
    assert (FIN : content_in n (srev u (srev w t)) (v +++ "</" +++ e +++ String gtc r) = SOk (mkI (srev (w +++ u +++ v +++ "</" +++ e +++ ">") t) r true)).
    { rewrite (IHl SL e n _ r P) by (rewrite !slen_app; cbn [String.length] in *; lia). f_equal. f_equal. rewrite !srev_cat. reflexivity. }
    destruct (identify (String ltc (String c p))) eqn:ID; try discriminate H.
    + apply SOk_inj in H. rewrite H. cbn [i_good i_tag i_rest]. exact FIN.
    + rewrite H. cbn [i_good i_tag i_rest]. exact FIN.
  - intros w s l v A N CF TD NT RL IH SC e n t r P L. assert (SL : forall y, In y l -> safe_comments y) by (intros y I; apply SC; now right).
    rewrite !sapp_assoc in *. rewrite (content_ws w A). destruct n as [|n]; [lia|]. rewrite !slen_app in L.
    destruct (rends_shape l v RL NT (e +++ String gtc r)) as (u & z & E & U).
    pose proof TD as (S1 & _ & _ & c0 & C0 & _). destruct s as [|d s]; [destruct (contains_byte_nil _ C0)|].
    assert (NSP : d <> sp) by (intros ->; apply (S1 s); reflexivity).
    destruct (esc1_head_text d NSP) as (d1 & t1 & H1 & H2 & H3).
    assert (HD : exists y, esc (String d s) +++ v +++ "</" +++ e +++ String gtc r = String d1 y) by (cbn [esc]; rewrite H1; cbn [String.append]; eexists; reflexivity).
    destruct HD as (y & HD). cbn [content_in]. rewrite HD, ws_in_stop by exact H2. cbn [i_good i_rest i_tag negb]. rewrite (proj2 (negb_true_iff _) (proj2 (ceqb_false d1 ltc) H3)). rewrite <- HD, E.
    rewrite <- sapp_assoc. destruct (esc_plain (String d s)) as [EP EL].
    rewrite text_in_app; [|rewrite plain_app, EP, (ws_plain u U); reflexivity|rewrite has_char_app, EL, (ws_text u U); reflexivity].
    cbn [i_good i_tag i_rest]. rewrite srev_cat, <- (content_ws u U), <- E.
    assert (LE : (1 <= String.length (esc (String d s)))%nat) by (cbn [esc]; rewrite slen_app, H1; cbn; lia).
    rewrite (IH SL e n _ r P) by (rewrite !slen_app; cbn [String.length] in *; lia). f_equal. f_equal. rewrite !srev_cat. reflexivity.
Qed.
