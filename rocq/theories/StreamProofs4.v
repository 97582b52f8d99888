(** Streams: reading what comes before the root, arbitrary input, turns. *)
From Coq Require Import ZArith List String Ascii Bool Lia.
From Verif Require Import Base XmlModel XmlSpec XmlProofs XmlProofs2 StreamModel StreamSpec StreamProofs StreamProofs2 StreamProofs3.
Import ListNotations.
Open Scope Z_scope.

(** ** white space first *)
Lemma doc_tag_acc z : forall t p, fst (doc_tag_in t p z) = fst (doc_tag_in t "" z) /\ snd (doc_tag_in t p z) = snd (doc_tag_in t "" z) +++ p.
Proof.
  induction z as [|c z IH]; intros t p; cbn [doc_tag_in]; [split; reflexivity|]. destruct (ceqb c gtc); [split; reflexivity|]. destruct (isnul c); [split; reflexivity|].
  destruct (IH (String c t) (String c p)) as [A1 A2]. destruct (IH (String c t) (String c "")) as [B1 B2]. rewrite A1, A2, B1, B2. split; [reflexivity|]. rewrite sapp_assoc. reflexivity.
Qed.
Lemma doc_tag_ws w : all_ws w = true -> forall t p z, doc_tag_in t p (w +++ z) = doc_tag_in (srev w t) (srev w p) z.
Proof.
  induction w as [|c w IH]; intros A t p z; [reflexivity|]. pose proof (ws_plain _ A) as P. cbn [all_ws plain] in *. apply andb_true_iff in A. destruct A as [_ A2].
  cbn [String.append doc_tag_in srev]. destruct (ceqb c gtc); [rewrite andb_false_r in P; discriminate|]. destruct (isnul c); [discriminate|]. now apply IH.
Qed.
Lemma Identify_ws w s : all_ws w = true -> Identify (w +++ s) = Identify s.
Proof.
  intros A. unfold Identify. destruct w as [|c w]; [reflexivity|]. rewrite skip_some by discriminate. rewrite skip_ws_app by assumption. destruct s as [|d s]; [reflexivity|]. now rewrite skip_some by discriminate.
Qed.
Lemma doc_ws w : all_ws w = true -> forall n t z, doc_in n t (w +++ z) = doc_in n (srev w t) z.
Proof.
  intros A [|n] t z; [reflexivity|]. cbn [doc_in]. rewrite (doc_tag_ws w A). destruct (doc_tag_acc z (srev w t) (srev w "")) as [E1 E2].
  destruct (doc_tag_in (srev w t) (srev w "") z) as [j p]. destruct (doc_tag_in (srev w t) "" z) as [j' p']. cbn [fst snd] in *. subst.
  assert (E : srev (p' +++ srev w "") "" = w +++ srev p' "") by (rewrite srev_cat, (srev_app (srev w "")), srev_twice; reflexivity).
  rewrite E, Identify_ws by exact A. reflexivity.
Qed.

(** ** before the root *)
Lemma space_ws c : space_byte (byte c) -> IsWhiteSpace c = true.
Proof. intros H. destruct c as [[] [] [] [] [] [] [] []]; try reflexivity; exfalso; cbv in H; intuition congruence. Qed.
Lemma root_kind x c p q u : rend x u -> is_elem x = true -> u = String ltc (String c p) +++ q -> identify (String ltc (String c p)) = KElem.
Proof.
  intros R EL E. assert (XN : xml_name (String c "")).
  { destruct R as [n a X|n a ch v X|s]; [| |discriminate]; destruct X as (d & t & -> & HS & B); cbn [String.append] in E; injection E as -> _; exists c, ""%string; repeat split; auto; intros ? (? & ? & Q); destruct x; discriminate. }
  exact (ident_elem (String c "") p XN).
Qed.
Lemma prolog_streams p : prolog p -> forall root u, rend root u -> is_elem root = true -> safe_comments root ->
  forall n t r, (String.length (p +++ u +++ r) < n)%nat -> doc_in n t (p +++ u +++ r) = SOk (mkI (srev (p +++ u) t) r true).
Proof.
  induction 1 as [|c p SB P IH|s p N C P IH|d p N C P IH|d p N C ND P IH]; intros root u R EL SC n t r L.
  - cbn [String.append] in *. destruct (rend_streams _ _ R SC) as (c & p & q & E & PL & _ & _ & _ & ST). destruct n as [|n]; [lia|]. cbn [doc_in].
    assert (E' : u +++ r = String ltc (String c p) +++ String gtc (q +++ r)) by (rewrite E, sapp_assoc; reflexivity).
    rewrite E' at 1. rewrite doc_tag_app by exact PL. cbv beta iota. cbn [i_good negb i_tag i_rest]. rewrite srev_twice. cbn [srev]. cbn [String.append]. rewrite Identify_lt.
    assert (LL : (String.length (String gtc (q +++ r)) < n)%nat) by (rewrite E', slen_app in L; cbn [String.length] in L |- *; lia).
    specialize (ST n t r LL). rewrite (root_kind root c p _ u R EL E) in ST |- *. exact ST.
  - cbn [String.append] in L |- *. change (String c (p +++ u +++ r)) with (String c "" +++ (p +++ u +++ r)).
    rewrite doc_ws by (cbn [all_ws]; rewrite (space_ws c SB); reflexivity). cbn [srev]. apply (IH root); auto. cbn [String.length] in L. lia.
  - destruct (comment_piece s N C) as (pp & q & E & PP & CI). destruct n as [|n]; [lia|]. cbn [doc_in].
    assert (E' : ("<!--" +++ s +++ "-->" +++ p) +++ u +++ r = ("<!--" +++ pp) +++ String gtc (q +++ p +++ u +++ r)).
    { transitivity (("<!--" +++ s +++ "-->") +++ p +++ u +++ r); [rewrite !sapp_assoc; reflexivity|]. rewrite E, sapp_assoc. reflexivity. }
    rewrite E' in L |- *. rewrite doc_tag_app by (rewrite plain_app, PP; reflexivity). cbv beta iota. cbn [i_good negb i_tag i_rest]. rewrite srev_twice.
    assert (K : Identify (srev "" "" +++ "<!--" +++ pp) = Some KComment) by reflexivity. rewrite K. cbv zeta. rewrite CI. cbn [i_good i_tag i_rest].
    rewrite (IH root u R EL SC) by (rewrite !slen_app in L; cbn [String.length] in L; rewrite !slen_app in L; rewrite !slen_app; lia).
    rewrite <- srev_cat. do 3 f_equal. rewrite !sapp_assoc. reflexivity.
  - destruct n as [|n]; [lia|]. cbn [doc_in]. pose proof (plain_intro d N C) as PD.
    assert (E' : ("<?" +++ d +++ ">" +++ p) +++ u +++ r = ("<?" +++ d) +++ String gtc (p +++ u +++ r)) by (rewrite !sapp_assoc; reflexivity).
    rewrite E' in L |- *. rewrite doc_tag_app by (rewrite plain_app, PD; reflexivity). cbv beta iota. cbn [i_good negb i_tag i_rest]. rewrite srev_twice.
    assert (K : Identify (srev "" "" +++ "<?" +++ d) = Some KDecl \/ Identify (srev "" "" +++ "<?" +++ d) = Some KUnknown).
    { cbn [srev String.append]. rewrite Identify_lt. unfold identify. destruct (StringEqualNoCase _ _); [now left|right]. reflexivity. }
    assert (G : to_gt (srev ("<?" +++ d) t) (String gtc (p +++ u +++ r)) = (mkI (String gtc (srev ("<?" +++ d) t)) (p +++ u +++ r) true, true)) by reflexivity.
    assert (LL : (String.length (p +++ u +++ r) < n)%nat) by (rewrite slen_app in L; cbn [String.length] in L; lia).
    assert (F : doc_in n (String gtc (srev ("<?" +++ d) t)) (p +++ u +++ r) = SOk (mkI (srev (("<?" +++ d +++ ">" +++ p) +++ u) t) r true)).
    { rewrite (IH root u R EL SC) by exact LL. change (String gtc (srev ("<?" +++ d) t)) with (srev ">" (srev ("<?" +++ d) t)). rewrite <- !srev_cat. do 3 f_equal. rewrite !sapp_assoc. reflexivity. }
    destruct K as [-> | ->]; cbv zeta; rewrite G; cbn [fst i_good i_tag i_rest]; exact F.
  - destruct n as [|n]; [lia|]. cbn [doc_in]. pose proof (plain_intro d N C) as PD.
    assert (E' : ("<!" +++ d +++ ">" +++ p) +++ u +++ r = ("<!" +++ d) +++ String gtc (p +++ u +++ r)) by (rewrite !sapp_assoc; reflexivity).
    rewrite E' in L |- *. rewrite doc_tag_app by (rewrite plain_app, PD; reflexivity). cbv beta iota. cbn [i_good negb i_tag i_rest]. rewrite srev_twice.
    assert (K : Identify (srev "" "" +++ "<!" +++ d) = Some KUnknown).
    { cbn [srev String.append]. rewrite Identify_lt. unfold identify.
      assert (K1 : StringEqualNoCase (String ltc (String "!"%char d)) "<?xml" = false) by reflexivity. rewrite K1.
      assert (K2 : StringEqual (String ltc (String "!"%char d)) "<!--" = false).
      { destruct (StringEqual (String ltc (String "!"%char d)) "<!--") eqn:K2; [|reflexivity]. exfalso. unfold StringEqual in K2. destruct (strip "<!--" (String ltc (String "!"%char d))) as [z|] eqn:Z; [|discriminate K2]. apply strip_some in Z. cbn [String.append] in Z. injection Z as Z. exact (ND z Z). }
      rewrite K2. reflexivity. }
    assert (G : to_gt (srev ("<!" +++ d) t) (String gtc (p +++ u +++ r)) = (mkI (String gtc (srev ("<!" +++ d) t)) (p +++ u +++ r) true, true)) by reflexivity.
    assert (LL : (String.length (p +++ u +++ r) < n)%nat) by (rewrite slen_app in L; cbn [String.length] in L; lia).
    rewrite K. cbv zeta. rewrite G. cbn [fst i_good i_tag i_rest]. rewrite (IH root u R EL SC) by exact LL.
    change (String gtc (srev ("<!" +++ d) t)) with (srev ">" (srev ("<!" +++ d) t)). rewrite <- !srev_cat. do 3 f_equal. rewrite !sapp_assoc. reflexivity.
Qed.
Lemma prolog_lead p : prolog p -> forall z, exists w y, p +++ String ltc z = w +++ String ltc y /\ all_ws w = true.
Proof.
  induction 1 as [|c p SB P IH|s p N C P IH|d p N C P IH|d p N C ND P IH]; intros z; try (exists ""%string; eexists; split; [reflexivity|reflexivity]).
  destruct (IH z) as (w & y & E & A). exists (String c w), y. cbn [String.append]. rewrite E. split; [reflexivity|]. cbn [all_ws]. rewrite (space_ws c SB). exact A.
Qed.
Lemma stream_to_ws w : all_ws w = true -> forall t y, stream_to ltc t (w +++ String ltc y) = (mkI (srev w t) (String ltc y) true, true).
Proof.
  induction w as [|c w IH]; intros A t y; [reflexivity|]. pose proof (ws_plain _ A) as P. pose proof (ws_text _ A) as T. cbn [all_ws plain has_char] in *. apply andb_true_iff in A. destruct A as [_ A2].
  cbn [String.append stream_to srev]. apply orb_false_iff in T. destruct T as [T _]. assert (E : ceqb c ltc = false) by (apply ceqb_false; apply ceqb_false in T; congruence). rewrite E.
  destruct (isnul c); [discriminate|]. now apply IH.
Qed.
Theorem stream_prolog p root u n r : prolog p -> rend root u -> is_elem root = true -> safe_comments root -> (String.length (p +++ u +++ r) < n)%nat ->
  stream_in n (p +++ u +++ r) = match parse_doc (p +++ u) with POk (l, er) => SOk (l, er, r, true) | PFuel => SFuel | PUB => SUB end.
Proof.
  intros P R EL SC L. destruct (rend_head _ _ R) as (c & z & E & _). destruct (prolog_lead p P (String c z +++ r)) as (w & y & EW & A).
  assert (E' : p +++ u +++ r = w +++ String ltc y) by (rewrite E; exact EW).
  unfold stream_in. rewrite E', stream_to_ws by exact A. cbn [i_tag i_rest]. rewrite <- (doc_ws w A), <- E', (prolog_streams p P root u R EL SC) by exact L. cbn [i_tag i_rest i_good].
  rewrite srev_twice. reflexivity.
Qed.
