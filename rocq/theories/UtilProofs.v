(** Proofs about printing. *)
From Coq Require Import ZArith List String Ascii Bool Reals Lia Lra.
From Flocq Require Import Core.
From Verif Require Import Base BaseProofs RBase XmlModel XmlSpec XmlProofs NumModel NumSpec NumProofs VecModel ParamsModel CaloModel CaloSpec CaloProofs
  ZpModel ZpSpec FtdModel FtdSpec FtdProofs TrkModel TpcModuleModel TpcModel CaloXmlModel TrkXmlModel TpcXmlModel GearXmlModel UtilModel UtilSpec UtilTextProofs.
Import ListNotations.
Local Open Scope list_scope.

(** ** Printers that only add to the stream *)
Definition writes (p : printer) (l : format -> list token) : Prop :=
  forall s, p s = SOk (mkSt (st_out s ++ l (st_fm s)) (st_fm s)) tt.
Definition quiet (p : printer) : Prop := exists l, writes p l.

Lemma writes_alone : forall p l f, writes p l -> alone p f (l f).
Proof. intros p l f W. unfold alone. rewrite W. reflexivity. Qed.
Lemma writes_ext : forall p l m, (forall f, l f = m f) -> writes p l -> writes p m.
Proof. intros p l m E W s. rewrite W, E. reflexivity. Qed.
Lemma writes_nothing : writes nothing (fun _ => []).
Proof. intros [o f]. unfold nothing. cbn. now rewrite app_nil_r. Qed.
Lemma writes_then : forall p q l m, writes p l -> writes q m -> writes (p ;; q) (fun f => l f ++ m f).
Proof. intros p q l m P Q s. unfold then_. rewrite P, Q. cbn. now rewrite app_assoc. Qed.
Lemma writes_emit : forall t, writes (emit t) (fun f => [t f]).
Proof. intros t s. reflexivity. Qed.
Lemma writes_text : forall s, writes (text s) (fun _ => [Text s]).
Proof. intros. apply writes_emit. Qed.
Lemma writes_int : forall z, writes (int z) (fun f => [Int f z]).
Proof. intros. apply writes_emit. Qed.
Lemma writes_double : forall x, writes (double x) (fun f => [Double f x]).
Proof. intros. apply (writes_emit (fun f => Double f x)). Qed.
Lemma writes_endl : writes endl (fun _ => [Text newline]).
Proof. apply writes_text. Qed.
Lemma writes_have : forall A (r : result A) a k l, r = Ok a -> writes (k a) l -> writes (have r k) l.
Proof. intros A r a k l -> W s. apply W. Qed.
Lemma writes_sprintf : forall l, (String.length (line_text l) < 1024)%nat -> writes (sprintf_line l) (fun _ => [Text (line_text l)]).
Proof.
  intros l H s. unfold sprintf_line. destruct (Nat.ltb_spec (String.length (line_text l)) 1024); [reflexivity|lia].
Qed.
Lemma writes_all : forall A (f : A -> printer) (g : A -> format -> list token) l,
  (forall x, In x l -> writes (f x) (g x)) -> writes (all_of f l) (fun fm => flat_map (fun x => g x fm) l).
Proof.
  induction l as [|x l IH]; intros H; [apply writes_nothing|]. cbn [all_of flat_map].
  apply (writes_then (f x) (all_of f l) (g x) (fun fm => flat_map (fun y => g y fm) l)).
  - apply H. now left.
  - apply IH. intros y Y. apply H. now right.
Qed.
Lemma writes_catch : forall p q l, writes p l -> writes (catch_unknown p q) l.
Proof. intros p q l W s. unfold catch_unknown. rewrite W. reflexivity. Qed.

Lemma quiet_writes : forall p l, writes p l -> quiet p.
Proof. intros p l W. exists l. exact W. Qed.
Lemma quiet_then : forall p q, quiet p -> quiet q -> quiet (p ;; q).
Proof. intros p q [l P] [m Q]. eexists. eapply writes_then; eassumption. Qed.
Lemma all_choice : forall A (f : A -> printer) l, (forall x, In x l -> quiet (f x)) ->
  exists L, writes (all_of f l) L /\ forall x, In x l -> exists lx, writes (f x) lx /\ forall fm, occurs (lx fm) (L fm).
Proof.
  induction l as [|x l IH]; intros H.
  - exists (fun _ => []). split; [apply writes_nothing|]. intros x [].
  - destruct (H x (or_introl eq_refl)) as [lx W]. destruct IH as [L [WL O]]; [intros y Y; apply H; now right|].
    exists (fun fm => lx fm ++ L fm). split; [cbn [all_of]; now apply writes_then|].
    intros y [->|Y].
    + exists lx. split; [exact W|]. intros fm. exists [], (L fm). reflexivity.
    + destruct (O y Y) as [ly [Wy Oy]]. exists ly. split; [exact Wy|]. intros fm.
      destruct (Oy fm) as [a [b E]]. exists (lx fm ++ a), b. rewrite E, <- app_assoc. reflexivity.
Qed.

Lemma occurs_left : forall x a b, occurs x a -> occurs x (a ++ b).
Proof. intros x a b [u [v ->]]. exists u, (v ++ b). now rewrite <- !app_assoc. Qed.
Lemma occurs_right : forall x a b, occurs x b -> occurs x (a ++ b).
Proof. intros x a b [u [v ->]]. exists (a ++ u), v. now rewrite <- !app_assoc. Qed.
Lemma occurs_cons : forall x t b, occurs x b -> occurs x (t :: b).
Proof. intros x t b [u [v ->]]. exists (t :: u), v. reflexivity. Qed.
Lemma occurs_trans : forall x y z, occurs x y -> occurs y z -> occurs x z.
Proof. intros x y z [u [v ->]] [a [b ->]]. exists (a ++ u), (v ++ b). now rewrite <- !app_assoc. Qed.
Lemma occurs_refl : forall x, occurs x x.
Proof. intros x. exists [], []. cbn. now rewrite app_nil_r. Qed.

Ltac wr1 :=
  match goal with
  | |- writes (then_ _ _) _ => eapply writes_then
  | |- writes endl _ => apply writes_endl
  | |- writes (text _) _ => apply writes_text
  | |- writes (int _) _ => apply writes_int
  | |- writes (double _) _ => apply writes_double
  | |- writes nothing _ => apply writes_nothing
  | H : writes ?p _ |- writes ?p _ => exact H
  end.
Ltac wr := repeat wr1.
Ltac occ := cbn [app]; first [ apply occurs_refl | exists (@nil token); eexists; cbn [app]; reflexivity | apply occurs_cons; occ | apply occurs_right; occ ].

(** ** Parameters *)
Lemma key_found : forall V (m : smap V) k, In k (sm_keys m) -> exists v, lookup_or_throw k m = Ok v.
Proof.
  intros V m k H. unfold lookup_or_throw. destruct (sm_find k m) eqn:E; [eauto|]. now apply sm_find_none_iff in E.
Qed.
Lemma found_key : forall V (m : smap V) k v, lookup_or_throw k m = Ok v -> In k (sm_keys m).
Proof.
  intros V m k v H. unfold lookup_or_throw in H. destruct (sm_find k m) eqn:E; [|discriminate].
  apply sm_find_in in E. apply in_map_iff. exists (k, v0). auto.
Qed.
Lemma writes_named : forall V label (m : smap V) (value : V -> printer) (g : V -> format -> list token),
  (forall v, writes (value v) (g v)) ->
  exists L, writes (print_named label (sm_keys m) (fun k => lookup_or_throw k m) value) L /\
    forall k v f, lookup_or_throw k m = Ok v ->
      occurs ([Text newline; Text label; Text k; Text (" " +++ tab +++ " ")] ++ g v f ++ [Text newline]) (L f).
Proof.
  intros V label m value g W. unfold print_named.
  set (one := fun k => endl ;; _).
  assert (O : forall k v, lookup_or_throw k m = Ok v ->
    writes (one k) (fun f => [Text newline; Text label; Text k; Text (" " +++ tab +++ " ")] ++ g v f ++ [Text newline])).
  { intros k v E. unfold one. eapply writes_ext; [|repeat first [wr1 | eapply writes_have; [exact E|apply W]]].
    intros f. reflexivity. }
  destruct (all_choice _ one (sm_keys m)) as [L [WL C]].
  { intros k K. destruct (key_found _ m k K) as [v E]. eexists. apply (O k v E). }
  exists L. split; [exact WL|]. intros k v f E. destruct (C k (found_key _ _ _ _ E)) as [lx [Wx Ox]].
  specialize (O k v E). assert (X : lx f = [Text newline; Text label; Text k; Text (" " +++ tab +++ " ")] ++ g v f ++ [Text newline]).
  { specialize (Wx (mkSt [] f)). specialize (O (mkSt [] f)). rewrite Wx in O. cbn in O. injection O. auto. }
  rewrite <- X. apply Ox.
Qed.
Lemma writes_commas : forall V (one : V -> printer) (g : V -> format -> token), (forall v, writes (one v) (fun f => [g v f])) ->
  forall v, writes (commas one v) (fun f => flat_map (fun x => [g x f; Text " , "]) v).
Proof.
  intros V one g W v. unfold commas. apply (writes_all _ _ (fun x f => [g x f; Text " , "])). intros x _.
  eapply writes_ext; [|eapply writes_then; [apply W|apply writes_text]]. intros f. reflexivity.
Qed.
Lemma params_written : forall p, exists l, writes (print_params p) l /\
  (forall k v f, getIntVal p k = Ok v -> occurs [Text newline; Text "    [int]       "; Text k; sep; Int f v; Text newline] (l f)) /\
  (forall k v f, getDoubleVal p k = Ok v -> occurs [Text newline; Text "    [double]    "; Text k; sep; Double f v; Text newline] (l f)) /\
  (forall k v f, getStringVal p k = Ok v -> occurs [Text newline; Text "    [string]    "; Text k; sep; Text v; Text newline] (l f)) /\
  (forall k v f, getIntVals p k = Ok v ->
     occurs ([Text newline; Text "    [IntVec]    "; Text k; sep] ++ flat_map (fun x => [Int f x; Text " , "]) v ++ [Text newline]) (l f)) /\
  (forall k v f, getDoubleVals p k = Ok v ->
     occurs ([Text newline; Text "    [DoubleVec] "; Text k; sep] ++ flat_map (fun x => [Double f x; Text " , "]) v ++ [Text newline]) (l f)) /\
  (forall k v f, getStringVals p k = Ok v ->
     occurs ([Text newline; Text "    [StringVec] "; Text k; sep] ++ flat_map (fun x => [Text x; Text " , "]) v ++ [Text newline]) (l f)).
Proof.
  intros p.
  destruct (writes_named Z "    [int]       " (p_int p) int (fun v f => [Int f v]) writes_int) as [l1 [W1 O1]].
  destruct (writes_named R "    [double]    " (p_double p) double (fun v f => [Double f v]) writes_double) as [l2 [W2 O2]].
  destruct (writes_named string "    [string]    " (p_string p) text (fun v _ => [Text v]) writes_text) as [l3 [W3 O3]].
  destruct (writes_named _ "    [IntVec]    " (p_intVec p) (commas int) _ (writes_commas _ int (fun v f => Int f v) writes_int)) as [l4 [W4 O4]].
  destruct (writes_named _ "    [DoubleVec] " (p_doubleVec p) (commas double) _ (writes_commas _ double (fun v f => Double f v) writes_double)) as [l5 [W5 O5]].
  destruct (writes_named _ "    [StringVec] " (p_stringVec p) (commas text) _ (writes_commas _ text (fun v _ => Text v) writes_text)) as [l6 [W6 O6]].
  exists (fun f => l1 f ++ l2 f ++ l3 f ++ l4 f ++ l5 f ++ l6 f). split.
  - unfold print_params. unfold getIntVal, getDoubleVal, getStringVal, getIntVals, getDoubleVals, getStringVals.
    repeat (apply writes_then; [assumption|]). assumption.
  - repeat split; intros k v f E.
    + apply occurs_left. now apply O1.
    + apply occurs_right, occurs_left. now apply O2.
    + do 2 apply occurs_right. apply occurs_left. now apply O3.
    + do 3 apply occurs_right. apply occurs_left. now apply O4.
    + do 4 apply occurs_right. apply occurs_left. now apply O5.
    + do 5 apply occurs_right. now apply O6.
Qed.
Lemma params_quiet : forall p, quiet (print_params p).
Proof. intros p. destruct (params_written p) as [l [W _]]. now exists l. Qed.

(** ** The field, modules and the TPC *)
Lemma field_written : forall b ps lp, writes (print_params ps) lp ->
  exists l, writes (print_field (b, ps)) l /\
    forall f, occurs (lp f) (l f) /\
    occurs [Text "       field vector at origin :   Bx = "; Double f (vx b); Text " , By = "; Double f (vy b); Text " , Bz = "; Double f (vz b)] (l f).
Proof.
  intros b ps lp W. eexists. split; [unfold print_field; wr|]. intros f. split.
  - occ.
  - occ.
Qed.

(** what one reads about a module *)
Lemma module_written : forall ord m ps lp, writes (print_params ps) lp ->
  exists l, writes (print_module ord m ps) l /\ forall f,
    occurs (lp f) (l f) /\
    occurs [Text "  Readout frequency :   "; Double f (TpcModuleModel.getReadoutFrequency m)] (l f) /\
    occurs [Text "  Type :                 "; Text (type_text (lay_type (m_layout m)))] (l f) /\
    occurs [Text "  Number of pads :      "; Int f (lay_nPads (m_layout m))] (l f) /\
    occurs [Text "  Number of Rows :      "; Int f (lay_nRows (m_layout m))] (l f) /\
    occurs [Text "  Offset :              "; Double f (fst (getOffset m)); Text "  ;  "; Double f (snd (getOffset m))] (l f) /\
    (forall z, getZPosition m = Some z -> occurs [Text "  zPosition :           "; Double f z] (l f)) /\
    (getZPosition m = None -> occurs [Text " no z Position set "] (l f)) /\
    occurs [Text "  Angle :               "; Double f (getAngle m)] (l f) /\
    occurs [Text "         extent (global):    ["; Double f (e0 (module_getPlaneExtent m)); Text ","; Double f (e1 (module_getPlaneExtent m)); Text ",";
            Double f (e2 (module_getPlaneExtent m)); Text ","; Double f (e3 (module_getPlaneExtent m)); Text "]"] (l f).
Proof.
  intros ord m ps lp W. destruct (getZPosition m) as [z|] eqn:E.
  - eexists. split; [unfold print_module; rewrite E; wr|]. intros f.
    repeat split; try discriminate; try (intros z' Z; injection Z as <-); try occ.
  - destruct (ord "zPosition"%string) eqn:O.
    + eexists. split; [unfold print_module; rewrite E, O; wr|]. intros f.
      repeat split; try discriminate; try intros _; occ.
    + eexists. split; [unfold print_module; rewrite E, O; wr|]. intros f.
      repeat split; try discriminate; try intros _; occ.
Qed.
Lemma module_quiet : forall ord m ps, quiet (print_module ord m ps).
Proof. intros. destruct (params_quiet ps) as [lp W]. destruct (module_written ord m ps lp W) as [l [Wl _]]. now exists l. Qed.
Lemma tpc_written : forall ord o lp, writes (print_params (to_par o)) lp ->
  exists l, writes (print_tpc ord o) l /\ forall f,
    occurs (lp f) (l f) /\
    occurs [Text "  maxDriftLength :      "; Double f (getMaxDriftLength (w_tpc (to_world o)))] (l f) /\
    occurs [Text "  coordinateType :      "; Text (type_text (getCoordinateType (w_tpc (to_world o))))] (l f) /\
    occurs [Text "  Number of modules :   "; Int f (getNModules (w_tpc (to_world o)))] (l f) /\
    forall a, In a (getModules (w_tpc (to_world o))) -> exists la,
      writes (print_module ord (w_heap (to_world o) a) (to_mpar o a)) la /\ occurs (la f) (l f).
Proof.
  intros ord o lp W.
  destruct (all_choice _ (fun a => print_module ord (w_heap (to_world o) a) (to_mpar o a)) (getModules (w_tpc (to_world o)))) as [L [WL C]].
  { intros a _. apply module_quiet. }
  eexists. split; [unfold print_tpc; wr|]. intros f. repeat split; try occ.
  intros a A. destruct (C a A) as [la [Wa Oa]]. exists la. split; [exact Wa|].
  apply occurs_trans with (L f); [apply Oa|]. occ.
Qed.
