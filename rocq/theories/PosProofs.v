(** The parser with positions does what the parser of XmlModel.v does, if it returns; and when it returns. *)
From Coq Require Import ZArith List String Ascii Bool Lia.
From Verif Require Import Base XmlModel XmlSpec XmlProofs XmlProofs2 PosModel PosSpec.
Import ListNotations.
Open Scope string_scope.
Open Scope list_scope.
Open Scope Z_scope.

Definition isS {A} (o : option A) : bool := match o with Some _ => true | None => false end.

(** ** Simulation *)
Definition sim {A B} (R : A -> bool -> B -> Prop) (st : pst) (r : tr A) (q : pr B) : Prop :=
  match r with
  | TWait => True
  | TUB => q = PUB
  | TFuel => q = PFuel
  | TOk st' a => exists er b, q = POk b /\ R a er b /\ isS (errd st') = isS (errd st) || er
  end.

Lemma Stamp_err : forall k e now st, match Stamp k e now st with
  | TOk st' _ => errd st' = errd st | TWait => True | _ => False end.
Proof.
  intros k e now st. unfold Stamp. destruct (stamp st) as [p|]; [|reflexivity].
  destruct (stamp_loop k e (String.length now) p (c_row st) (c_col st)) as [[[r c] p']|]; [reflexivity | exact I].
Qed.

Lemma SetError_err : forall k x e place st, match SetError k x e place st with
  | TOk st' _ => isS (errd st') = true | TWait => True | _ => False end.
Proof.
  intros k x e place st. unfold SetError. destruct (errd st) eqn:E; [rewrite E; reflexivity|].
  destruct place as [now|]; [|reflexivity]. unfold mbind. assert (H := Stamp_err k e now st).
  destruct (Stamp k e now st); auto.
Qed.

Lemma sim_stamp : forall A B (R : A -> bool -> B -> Prop) k e now (m : M A) st q,
  (forall st', errd st' = errd st -> sim R st (m st') q) -> sim R st ((Stamp k e now ;;; m) st) q.
Proof.
  intros A B R k e now m st q H. unfold mbind. assert (S := Stamp_err k e now st).
  destruct (Stamp k e now st) as [st' u| | |]; try contradiction; [|exact I]. apply H. exact S.
Qed.

Lemma sim_err : forall A B (R : A -> bool -> B -> Prop) k x e place a st0 st b,
  R a true b -> sim R st0 ((SetError k x e place ;;; ret a) st) (POk b).
Proof.
  intros A B R k x e place a st0 st b H. unfold mbind, ret. assert (S := SetError_err k x e place st).
  destruct (SetError k x e place st) as [st' u| | |]; try contradiction; [|exact I].
  exists true, b. split; [reflexivity|]. split; [exact H|]. rewrite S, orb_true_r. reflexivity.
Qed.

Lemma sim_ret : forall A B (R : A -> bool -> B -> Prop) a st0 st b,
  R a false b -> errd st = errd st0 -> sim R st0 (ret a st) (POk b).
Proof.
  intros A B R a st0 st b H E. exists false, b. split; [reflexivity|]. split; [exact H|].
  rewrite E, orb_false_r. reflexivity.
Qed.

Lemma sim_lift : forall A B C (R : B -> bool -> C -> Prop) (r : pr A) (f : A -> M B) (g : A -> pr C) st0 st,
  (forall a, sim R st0 (f a st) (g a)) -> sim R st0 (mbind (lift r) f st) (pbind r g).
Proof. intros A B C R [a| |] f g st0 st H; cbn; auto. Qed.

Lemma sim_bind : forall A A' B B' (R1 : A -> bool -> A' -> Prop) (R2 : B -> bool -> B' -> Prop)
  (m : M A) (f : A -> M B) q (g : A' -> pr B') st0 st,
  errd st = errd st0 ->
  sim R1 st (m st) q ->
  (forall st1 a er b, R1 a er b ->
     sim (fun x er2 y => R2 x (er || er2) y) st1 (f a st1) (g b)) ->
  sim R2 st0 (mbind m f st) (pbind q g).
Proof.
  intros A A' B B' R1 R2 m f q g st0 st E0 H1 H2. unfold mbind. destruct (m st) as [st1 a| | |]; cbn in H1.
  - destruct H1 as [er [b [-> [HR E]]]]. cbn [pbind].
    specialize (H2 st1 a er b HR). destruct (f a st1) as [st2 x| | |]; cbn in *; auto.
    destruct H2 as [er2 [y [-> [HR2 E2]]]]. exists (er || er2), y. split; [reflexivity|]. split; [exact HR2|].
    rewrite E2, E, E0, orb_assoc. reflexivity.
  - subst q. reflexivity.
  - subst q. reflexivity.
  - exact I.
Qed.

(** ** Attributes *)
Definition R_attr (doc : bool) (a : string * string * ptr) (er : bool) (b : string * string * ptr * bool) : Prop :=
  let '(n, v, q) := a in exists er', b = (n, v, q, er') /\ (er' = true -> q = None) /\ er = doc && er'.

Lemma tparse_attr_sim : forall k doc e p st, sim (R_attr doc) st (tparse_attr k doc e p st) (parse_attr e p).
Proof.
  intros k doc e p st. unfold tparse_attr, parse_attr.
  destruct (SkipWhiteSpace e p) as [[|c t]|] eqn:E0.
  - apply sim_ret; [|reflexivity]. exists false. rewrite andb_false_r. intuition discriminate.
  - apply sim_stamp. intros st1 E1.
    assert (FAIL : forall name place, sim (R_attr doc) st
      (((if doc then SetError k ErrAttributes e place else ret tt) ;;; ret (name, "", None)) st1)
      (POk (name, "", None, true))).
    { intros name place. destruct doc.
      - apply sim_err. exists true. auto.
      - unfold mbind, ret. exists false, (name, "", None, true). split; [reflexivity|]. split.
        + exists true. auto.
        + rewrite E1, orb_false_r. reflexivity. }
    destruct (ReadName (Some (String c t))) as [name p1].
    destruct p1 as [[|c1 s1]|]; try apply FAIL.
    destruct (SkipWhiteSpace e (Some (String c1 s1))) as [[|c2 s2]|]; try apply FAIL.
    destruct (ceqb c2 "="); [|apply FAIL].
    destruct (SkipWhiteSpace e (Some s2)) as [[|d s3]|]; try apply FAIL.
    destruct (ceqb d apos || ceqb d quot).
    + apply sim_lift. intros [v r]. apply sim_ret; [|exact E1]. exists false. rewrite andb_false_r. intuition discriminate.
    + destruct (read_bare (String d s3)) as [v r]. apply sim_ret; [|exact E1].
      exists false. rewrite andb_false_r. intuition discriminate.
  - apply sim_ret; [|reflexivity]. exists false. rewrite andb_false_r. intuition discriminate.
Qed.

Definition end_err (en : attrs_end) : bool := match en with AFail b => b | _ => false end.
Definition R_attrs (a : list (string * string) * attrs_end) (er : bool) (b : list (string * string) * attrs_end) : Prop :=
  b = a /\ er = end_err (snd a).

Lemma sim_imp : forall A B (R R' : A -> bool -> B -> Prop) st r q,
  (forall a er b, R a er b -> R' a er b) -> sim R st r q -> sim R' st r q.
Proof.
  intros A B R R' st [st' a| | |] q H S; cbn in *; auto. destruct S as [er [b [-> [HR E]]]]. eauto 6.
Qed.

Lemma tparse_attrs_sim : forall n k e acc p st, sim R_attrs st (tparse_attrs k n e acc p st) (parse_attrs n e acc p).
Proof.
  induction n; intros k e acc p st; [reflexivity|]. cbn [tparse_attrs parse_attrs].
  destruct (SkipWhiteSpace e p) as [[|c t]|] eqn:E0; try (apply sim_err; split; reflexivity).
  destruct (ceqb c "/").
  - destruct t as [|d r]; [apply sim_err; split; reflexivity|].
    destruct (ceqb d gtc); [apply sim_ret; [split|]; reflexivity | apply sim_err; split; reflexivity].
  - destruct (ceqb c gtc); [apply sim_ret; [split|]; reflexivity|].
    eapply sim_bind; [reflexivity | apply tparse_attr_sim|].
    intros st1 [[name v] q] er [[[n' v'] q'] er'] [er'' [E [N1 N2]]]. injection E as -> -> -> ->. cbn [andb] in N2. subst er.
    destruct q as [[|d r]|].
    + apply sim_err. destruct er''; [discriminate (N1 eq_refl)|]. split; reflexivity.
    + destruct er''; [discriminate (N1 eq_refl)|].
      destruct (find_attr (c_str name) acc); [apply sim_ret; [split|]; reflexivity|].
      eapply sim_imp; [|apply IHn]. intros a er b HR. exact HR.
    + apply sim_err. split; [reflexivity|]. rewrite orb_true_r. reflexivity.
Qed.

(** ** Nodes *)
Definition R_node {X} (a : X * ptr) (er : bool) (b : X * ptr * bool) : Prop := b = (fst a, snd a, er).

Lemma quiet_sim : forall st0 st r, (forall x q er, r = POk (x, q, er) -> er = false) -> errd st = errd st0 ->
  sim R_node st0 (quiet r st) r.
Proof.
  intros st0 st [[[x q] er]| |] H E; cbn; auto.
  exists false, (x, q, er). split; [reflexivity|]. split; [|rewrite E, orb_false_r; reflexivity].
  rewrite (H x q er eq_refl). reflexivity.
Qed.

Lemma tparse_comment_sim : forall k e s st, sim R_node st (tparse_comment k e s st) (parse_comment e s).
Proof.
  intros k e s st. apply sim_stamp. intros st1 E. apply quiet_sim; [|exact E].
  intros x q er H. unfold parse_comment in H. destruct (ReadText e false "-->" (Some (drop 4 s))) as [[v [r| |]]| |]; try discriminate.
  injection H as _ _ <-. reflexivity.
Qed.

Lemma tparse_unknown_sim : forall k e s st, sim R_node st (tparse_unknown k e s st) (parse_unknown s).
Proof.
  intros k e s st. apply sim_stamp. intros st1 E. apply quiet_sim; [|exact E].
  intros x q er H. unfold parse_unknown in H. destruct (read_unknown (drop 1 s)). injection H as _ _ <-. reflexivity.
Qed.

Lemma tdecl_loop_sim : forall n k e v c a p st, sim R_node st (tdecl_loop k n e v c a p st) (decl_loop n e v c a p).
Proof.
  induction n; intros k e v c a p st; [reflexivity|]. cbn [tdecl_loop decl_loop].
  destruct p as [[|d t]|]; try (apply sim_ret; reflexivity).
  destruct (ceqb d gtc); [apply sim_ret; reflexivity|].
  destruct (SkipWhiteSpace e (Some (String d t))) as [s1|]; [|apply sim_ret; reflexivity].
  assert (AT : forall (f : string -> ptr -> M (xnode * ptr)) (g : string -> ptr -> pr (xnode * ptr * bool)),
    (forall w q st, sim R_node st (f w q st) (g w q)) ->
    sim R_node st (('(_, w, q) <- tparse_attr k false e (Some s1) ;; f w q) st)
      (pbind (parse_attr e (Some s1)) (fun '(_, w, q, _) => g w q))).
  { intros f g H. eapply sim_bind; [reflexivity | apply tparse_attr_sim|].
    intros st1 [[nm w] q] er [[[n' v'] q'] er'] [er'' [E [N1 N2]]]. injection E as -> -> -> ->. subst er. apply H. }
  destruct (StringEqualNoCase s1 "version"). { apply (AT (fun w q => tdecl_loop k n e (c_str w) c a q) (fun w q => decl_loop n e (c_str w) c a q)). intros. apply IHn. }
  destruct (StringEqualNoCase s1 "encoding"). { apply (AT (fun w q => tdecl_loop k n e v (c_str w) a q) (fun w q => decl_loop n e v (c_str w) a q)). intros. apply IHn. }
  destruct (StringEqualNoCase s1 "standalone"). { apply (AT (fun w q => tdecl_loop k n e v c (c_str w) q) (fun w q => decl_loop n e v c (c_str w) q)). intros. apply IHn. }
  apply IHn.
Qed.

Lemma tparse_decl_sim : forall k e s st, sim R_node st (tparse_decl k e s st) (parse_decl e s).
Proof.
  intros k e s st. apply sim_stamp. intros st1 E.
  assert (H := tdecl_loop_sim (S (String.length s)) k e "" "" "" (Some (drop 5 s)) st1).
  unfold parse_decl. unfold sim in *. rewrite E in H. exact H.
Qed.

Lemma sim_err_set : forall A B (R : A -> bool -> B -> Prop) k x e place a st b,
  R a true b -> sim R st ((SetError k x e place ;;; ret a) st) (POk b).
Proof. intros. apply sim_err. exact H. Qed.

Lemma elem_value_sim : forall n,
  (forall k e p st, sim R_node st (tparse_elem k n e p st) (parse_elem n e p)) /\
  (forall k e p st, sim R_node st (tread_value k n e p st) (read_value n e p)).
Proof.
  induction n as [|n [IHe IHv]]; [split; intros; reflexivity|]. split.
  - intros k e p st. cbn [tparse_elem parse_elem].
    destruct (SkipWhiteSpace e p) as [[|c t]|]; try (apply sim_err; reflexivity).
    apply sim_stamp. intros st1 E1.
    destruct (negb (ceqb c ltc)); [apply sim_err; reflexivity|].
    destruct (ReadName (SkipWhiteSpace e (Some t))) as [name p1].
    destruct p1 as [[|c1 s1]|]; try (apply sim_err; reflexivity).
    eapply sim_bind; [exact E1 | apply tparse_attrs_sim|].
    intros st2 [attrs en] er b [-> ->]. cbn [snd].
    destruct en as [r|r|er]; cbn [end_err orb].
    + apply sim_ret; reflexivity.
    + eapply sim_bind; [reflexivity | apply IHv|].
      intros st3 [ch q] er b ->. cbn [fst snd]. destruct q as [[|c2 s2]|].
      * apply sim_ret; [unfold R_node; rewrite orb_false_r; reflexivity | reflexivity].
      * destruct (strip ("</" +++ name +++ ">") (String c2 s2)) as [r2|].
        -- apply sim_ret; [unfold R_node; rewrite orb_false_r; reflexivity | reflexivity].
        -- apply sim_err. unfold R_node. rewrite orb_true_r. reflexivity.
      * apply sim_ret; [unfold R_node; rewrite orb_false_r; reflexivity | reflexivity].
    + apply sim_ret; [unfold R_node; rewrite orb_false_r; reflexivity | reflexivity].
  - intros k e p st. cbn [tread_value read_value].
    destruct p as [[|c t]|]; [apply sim_ret; reflexivity | | apply sim_err; reflexivity].
    destruct (negb (ceqb c ltc)).
    + unfold tparse_text. 
      assert (H : forall (f : string * ptr -> M (list xnode * ptr)),
        mbind (Stamp k e (String c t) ;;; lift (parse_text e (String c t))) f st =
        (Stamp k e (String c t) ;;; mbind (lift (parse_text e (String c t))) f) st).
      { intros f. unfold mbind. destruct (Stamp k e (String c t) st); reflexivity. }
      rewrite H. apply sim_stamp. intros st1 E1. apply sim_lift. intros [v q].
      eapply sim_bind; [exact E1 | apply IHv|].
      intros st2 [ch q2] er b ->. apply sim_ret; [|reflexivity]. unfold R_node. rewrite orb_false_r. reflexivity.
    + destruct (StringEqual (String c t) "</"); [apply sim_ret; reflexivity|].
      eapply sim_bind with (R1 := R_node); [reflexivity| |].
      * destruct (identify (String c t)); [apply tparse_decl_sim | apply tparse_comment_sim | apply tparse_unknown_sim | apply IHe].
      * intros st1 [x q] er b ->. cbn [fst snd]. eapply sim_bind; [reflexivity | apply IHv|].
        intros st2 [ch q2] er2 b ->. apply sim_ret; [|reflexivity]. unfold R_node. cbn [fst snd]. rewrite orb_false_r. reflexivity.
Qed.

Lemma tparse_node_sim : forall k e s st, sim R_node st (tparse_node k e s st) (parse_node e s).
Proof.
  intros k e s st. unfold tparse_node, parse_node.
  destruct (identify s); [apply tparse_decl_sim | apply tparse_comment_sim | apply tparse_unknown_sim | apply elem_value_sim].
Qed.

Definition R_doc (a : list xnode) (er : bool) (b : list xnode * bool) : Prop := b = (a, er).

Lemma tdoc_loop_sim : forall n k e p st, sim R_doc st (tdoc_loop k n e p st) (doc_loop n e p).
Proof.
  induction n; intros k e p st; [reflexivity|]. cbn [tdoc_loop doc_loop].
  destruct p as [[|c t]|]; try (apply sim_ret; reflexivity).
  destruct (negb (ceqb c ltc)); [apply sim_ret; reflexivity|].
  eapply sim_bind; [reflexivity | apply tparse_node_sim|].
  intros st1 [x q] er b ->. cbn [fst snd]. cbv zeta. eapply sim_bind; [reflexivity | apply IHn|].
  intros st2 l er2 b ->. apply sim_ret; [|reflexivity]. unfold R_doc. rewrite orb_false_r. reflexivity.
Qed.

(** If loading returns, it returns what XmlModel.v says, and there is an error exactly if it returns false. *)
Lemma tLoadFile_sim : forall k s,
  match tLoadFile k s with
  | TWait => True
  | TUB => LoadFile s = PUB
  | TFuel => LoadFile s = PFuel
  | TOk st doc => LoadFile s = POk (doc, if String.eqb s "" then false else negb (isS (errd st)))
  end.
Proof.
  intros k s. unfold tLoadFile, LoadFile. destruct (String.eqb s ""); [reflexivity|].
  unfold tparse_doc, parse_doc. set (st0 := mkP 0 0 (Some s) None).
  destruct (SkipWhiteSpace (start_enc s) (Some s)) as [s1|]; [|reflexivity].
  assert (S := sim_bind _ _ _ _ R_doc R_doc (tdoc_loop k (S (String.length s1)) (start_enc s) (Some s1))
    (fun l => match l with [] => SetError k ErrEmptyDoc (start_enc s) None ;;; ret [] | _ => ret l end)
    (doc_loop (S (String.length s1)) (start_enc s) (Some s1))
    (fun '(l, er) => POk (l, er || match l with [] => true | _ => false end)) st0 st0 eq_refl
    (tdoc_loop_sim _ _ _ _ _)).
  assert (S' := S (fun st1 a er b HR => ltac:(
    unfold R_doc in HR; subst b; destruct a as [|x l]; [apply sim_err | apply sim_ret; [|reflexivity]]; reflexivity))).
  clear S. unfold sim in S'.
  match goal with |- match ?r with _ => _ end => destruct r as [st a| | |] end; try exact I.
  - destruct S' as [er [b [E [HR EE]]]]. rewrite E. cbn [pbind]. unfold R_doc in HR. subst b.
    cbn [errd st0 isS orb] in EE. subst er. reflexivity.
  - rewrite S'. reflexivity.
  - rewrite S'. reflexivity.
Qed.
