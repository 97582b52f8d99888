(** Proofs about fields and materials in files (C66). *)
From Coq Require Import ZArith List String Ascii Bool Reals Lia Lra.
From Flocq Require Import Core.
From Verif Require Import Base BaseProofs RBase VecModel XmlModel XmlSpec XmlProofs NumModel NumSpec NumProofs HxModel HxSpec HxProofs
  ParamsModel ParamsSpec ParamsProofs ParXmlModel ParXmlSpec ParXmlProofs TrkModel TrkXmlModel TrkXmlSpec TrkXmlProofs.
Import ListNotations.
Open Scope list_scope.
Open Scope R_scope.

(** ** The field *)
Definition field_pairs (b : vec) : list (string * string) :=
  [("type", "ConstantBField"); ("x", print_double (vx b)); ("y", print_double (vy b)); ("z", print_double (vz b))]%string.
Lemma field_pairs_ok : forall b, pairs_ok (field_pairs b).
Proof. intros b. unfold field_pairs. pairs. Qed.
Lemma field_element : forall b p, sorted_params p -> field_toXML (b, p) = Ok (XElem "BField" (attrs_of (field_pairs b)) ([] ++ all_elems p)).
Proof. intros b p S. unfold field_toXML. rewrite to_xml_elems by exact S. reflexivity. Qed.
Definition reread_field (b : vec) : vec := mkVec (reread (vx b)) (reread (vy b)) (reread (vz b)).
Lemma field_read : forall b p, sorted_params p -> text_ok_params p ->
  field_fromXML (XElem "BField" (attrs_of (field_pairs b)) ([] ++ all_elems p)) = Ok (reread_field b, back p).
Proof.
  intros b p S T. pose proof (field_pairs_ok b) as P. unfold field_fromXML, get_double. steps P.
  rewrite det_params; [reflexivity | exact S | exact T|]. intros x [].
Qed.
Lemma reload_field : forall b p, sorted_params p -> text_ok_params p ->
  reload field_toXML field_fromXML (b, p) = Ok (reread_field b, back p).
Proof.
  intros b p S T. unfold reload. rewrite field_element by exact S. cbn [rbind].
  rewrite via_writable; [|apply det_writable; [reflexivity | apply field_pairs_ok | exact S | exact T | intros x []] | reflexivity].
  cbn [rbind]. apply field_read; assumption.
Qed.

Lemma field_back : forall b hp, storable (after hp) ->
  exists p', reload field_toXML field_fromXML (b, after hp) = Ok (mkVec (reread (vx b)) (reread (vy b)) (reread (vz b)), p').
Proof. intros b hp SP. rewrite reload_field by (try apply after_sorted; apply storable_text; assumption). eexists. reflexivity. Qed.

Lemma field_survives : forall b hp, let o := (b, after hp) in storable (after hp) ->
  (reload field_toXML field_fromXML o = Ok o <-> kept (vx b) /\ kept (vy b) /\ kept (vz b) /\ survive (after hp)).
Proof.
  intros b hp o SP. unfold o. rewrite reload_field by (try apply after_sorted; apply storable_text; assumption).
  pose proof (back_same_iff (after hp) (after_sorted hp)) as B. fold (survive (after hp)) in B. rewrite <- B. clear B.
  destruct b as [x y z]. unfold reread_field, kept, reread. cbn [vx vy vz]. split.
  - intros E. injection E as E1 E2 E3 E4. auto.
  - intros [-> [-> [-> ->]]]. reflexivity.
Qed.

(** ** Numbers through a stream *)
Lemma all_digits_app : forall a b, all_digits a = true -> all_digits b = true -> all_digits (a +++ b) = true.
Proof. induction a as [|c a IH]; intros b A B; [exact B|]. cbn in *. apply andb_true_iff in A. destruct A as [-> A]. rewrite IH by assumption. reflexivity. Qed.
Lemma dec_digits : forall k z, (0 <= z)%Z -> all_digits (dec k z) = true.
Proof.
  induction k; intros z Z; cbn [dec]; [reflexivity|]. apply all_digits_app; [apply IHk; apply Z.div_pos; lia|].
  cbn. rewrite digit_isdigit; [reflexivity|]. pose proof (Z.mod_pos_bound z 10 ltac:(lia)). lia.
Qed.
Lemma digits_of_app : forall d s, all_digits d = true -> nondigit_first s -> digits_of (d +++ s) = (d, s).
Proof.
  induction d as [|c d IH]; intros s D N.
  - destruct s as [|c t]; [reflexivity|]. cbn in *. rewrite N. reflexivity.
  - cbn in D. apply andb_true_iff in D. destruct D as [D1 D2]. cbn [String.append digits_of]. rewrite D1, IH by assumption. reflexivity.
Qed.
Lemma digits_of_all : forall d, all_digits d = true -> digits_of d = (d, ""%string).
Proof. intros d D. rewrite <- (sapp_nil_r d) at 1. apply digits_of_app; [exact D | exact I]. Qed.

(** a number as "%.9e" writes it *)
Definition sci_shape (s : string) : Prop := exists sg c i f es d e,
  s = ((if sg : bool then "-" else "") +++ String c i +++ "." +++ f +++ "e" +++ String (if es : bool then "-"%char else "+"%char) (String d e))%string /\
  all_digits (String c i) = true /\ all_digits f = true /\ all_digits (String d e) = true.

Lemma print_shape : forall x, sci_shape (print_double x).
Proof.
  intros x. unfold print_double. cbv zeta. set (m := Ztrunc _). set (e0 := cexp _ _ _). destruct (m =? 0)%Z.
  - exists false, "0"%char, ""%string, "000000000"%string, false, "0"%char, "0"%string. repeat split.
  - unfold print_sci, print_exp. set (k := (e0 + 9)%Z).
    assert (A : (0 <= Z.abs m / 1000000000)%Z) by (apply Z.div_pos; lia).
    destruct (dec_head 0 (Z.abs m / 1000000000) A) as [c [i [E1 D1]]].
    assert (X : exists d e, (if Z.abs k <? 10 then dec 2 (Z.abs k) else print_uint (Z.abs k))%Z = String d e /\ all_digits (String d e) = true).
    { destruct (Z.abs k <? 10)%Z.
      - destruct (dec_head 1 (Z.abs k) (Z.abs_nonneg k)) as [d [e [E _]]]. exists d, e. split; [exact E|]. rewrite <- E. apply dec_digits. lia.
      - destruct (print_uint_head (Z.abs k) (Z.abs_nonneg k)) as [d [e [E _]]]. exists d, e. split; [exact E|]. rewrite <- E. unfold print_uint. apply dec_digits. lia. }
    destruct X as [d [e [E2 D2]]].
    exists (m <? 0)%Z, c, i, (dec 9 (Z.abs m)), (k <? 0)%Z, d, e. split; [|split; [|split]].
    + rewrite E1, E2. reflexivity.
    + rewrite <- E1. apply dec_digits. exact A.
    + apply dec_digits. lia.
    + exact D2.
Qed.

Lemma digit_not : forall c, isdigit c = true -> ceqb c "." = false /\ ceqb c "e" = false.
Proof. intros c H. destruct c as [[] [] [] [] [] [] [] []]; try discriminate; split; reflexivity. Qed.

Lemma stream_shape : forall s, sci_shape s -> stream_double s = Some (atof s, ""%string).
Proof.
  intros s [sg [c [i [f [es [d [e [E [D1 [D2 D3]]]]]]]]]].
  assert (C : isdigit c = true) by (cbn in D1; apply andb_true_iff in D1; tauto).
  destruct (isdigit_plain c C) as [W [M P]].
  assert (D : isdigit d = true) by (cbn in D3; apply andb_true_iff in D3; tauto).
  set (r := (String c i +++ "." +++ f +++ "e" +++ String (if es : bool then "-"%char else "+"%char) (String d e))%string) in *.
  assert (K : skip_ws s = s /\ s <> ""%string /\ sign_of s = ((if sg : bool then "-" else "")%string, r)).
  { rewrite E. destruct sg; (split; [|split]).
    - reflexivity.
    - discriminate.
    - reflexivity.
    - unfold r. cbn [String.append skip_ws]. rewrite W. reflexivity.
    - discriminate.
    - unfold r. cbn [String.append sign_of]. rewrite M, P. reflexivity. }
  destruct K as [K1 [K2 K3]]. unfold stream_double. rewrite K1. destruct s as [|a0 s0] eqn:S; [congruence|]. rewrite <- S in *. clear K2. rewrite K3.
  unfold r at 1. rewrite digits_of_app by (assumption || reflexivity).
  cbn [String.append]. change (ceqb "." ".") with true. cbv iota.
  rewrite digits_of_app by (assumption || reflexivity).
  cbn [String.append String.eqb]. change (ceqb "e" "e" || ceqb "e" "E")%bool with true. cbv iota.
  assert (K4 : sign_of (String (if es then "-"%char else "+"%char) (String d e)) = (String (if es then "-"%char else "+"%char) "", String d e)) by (destruct es; reflexivity).
  rewrite K4, digits_of_all by exact D3. cbv beta iota. change (String.eqb (String d e) "") with false. cbv iota.
  do 3 f_equal. rewrite E. unfold r. cbn [String.append]. reflexivity.
Qed.
Lemma stream_print : forall x, stream_double (print_double x) = Some (reread x, ""%string).
Proof. intros x. apply stream_shape. apply print_shape. Qed.

(** ** Materials *)
Definition smat_pairs (m : smat) : list (string * string) :=
  [("name", sm_name m); ("A", print_double (sm_A m)); ("Z", print_double (sm_Z m)); ("density", print_double (sm_density m));
   ("radLength", print_double (sm_radLength m)); ("intLength", print_double (sm_intLength m))]%string.
Lemma smat_pairs_ok : forall m, clean (sm_name m) -> pairs_ok (smat_pairs m).
Proof. intros m C. unfold smat_pairs. pairs. Qed.
Definition reread_smat (m : smat) : smat :=
  mkSM (sm_name m) (reread (sm_A m)) (reread (sm_Z m)) (reread (sm_density m)) (reread (sm_radLength m)) (reread (sm_intLength m)).

Lemma stream_once : forall x o, stream_step (""%string, o) (print_double x) = Ok (reread x, (""%string, Some (reread x))).
Proof. intros x o. unfold stream_step. cbn [fst String.append]. rewrite stream_print. reflexivity. Qed.

Lemma smat_read : forall m ch, clean (sm_name m) -> smat_fromXML (XElem "material" (attrs_of (smat_pairs m)) ch) = Ok (reread_smat m).
Proof.
  intros m ch C. pose proof (smat_pairs_ok m C) as P. unfold smat_fromXML.
  do 2 (eapply step_text; [exact P | reflexivity | cbv beta]). rewrite stream_once. cbn [rbind fst snd].
  eapply step_text; [exact P | reflexivity | cbv beta]. rewrite stream_once. cbn [rbind fst snd].
  eapply step_text; [exact P | reflexivity | cbv beta]. rewrite stream_once. cbn [rbind fst snd].
  eapply step_text; [exact P | reflexivity | cbv beta]. rewrite stream_once. cbn [rbind fst snd].
  eapply step_text; [exact P | reflexivity | cbv beta]. rewrite stream_once. cbn [rbind fst snd].
  reflexivity.
Qed.

Lemma material_back : forall m, clean_text (sm_name m) -> reload smat_toXML smat_fromXML m =
  Ok (mkSM (sm_name m) (reread (sm_A m)) (reread (sm_Z m)) (reread (sm_density m)) (reread (sm_radLength m)) (reread (sm_intLength m))).
Proof.
  intros m C. unfold reload, smat_toXML. cbn [rbind]. fold (smat_pairs m).
  rewrite via_writable; [|apply leaf_writable; [reflexivity | apply smat_pairs_ok; exact C] | reflexivity].
  cbn [rbind]. apply smat_read. exact C.
Qed.

Lemma material_survives : forall m, clean_text (sm_name m) ->
  (reload smat_toXML smat_fromXML m = Ok m <-> kept (sm_A m) /\ kept (sm_Z m) /\ kept (sm_density m) /\ kept (sm_radLength m) /\ kept (sm_intLength m)).
Proof.
  intros m C. rewrite material_back by exact C. destruct m as [n a z d r i]. unfold kept, reread. cbn [sm_name sm_A sm_Z sm_density sm_radLength sm_intLength]. split.
  - intros E. injection E as E1 E2 E3 E4 E5. auto.
  - intros [-> [-> [-> [-> ->]]]]. reflexivity.
Qed.

(** a text without a number stays in the stream *)
Lemma skip_again : forall s t, skip_ws s = t -> skip_ws t = t.
Proof.
  induction s as [|c s IH]; intros t E; cbn in E; [subst; reflexivity|]. destruct (IsWhiteSpace c) eqn:W; [apply IH; exact E|].
  subst t. cbn. rewrite W. reflexivity.
Qed.
Lemma stuck : forall c t u, isdigit c = false -> c <> "-"%char -> c <> "+"%char -> c <> "."%char -> IsWhiteSpace c = false ->
  stream_double (String c t +++ u) = Some (0, (String c t +++ u)).
Proof.
  intros c t u D M P O W. unfold stream_double. cbn [String.append skip_ws]. rewrite W. unfold sign_of.
  assert (E1 : ceqb c "-" = false) by (apply Ascii.eqb_neq; exact M). assert (E2 : ceqb c "+" = false) by (apply Ascii.eqb_neq; exact P).
  assert (E3 : ceqb c "." = false) by (apply Ascii.eqb_neq; exact O). rewrite E1, E2. cbn [orb]. cbn [digits_of]. rewrite D, E3. reflexivity.
Qed.
Lemma skip_app : forall s u c t, skip_ws s = String c t -> skip_ws (s +++ u) = String c (t +++ u).
Proof.
  induction s as [|a s IH]; intros u c t E; cbn in *; [discriminate|]. destruct (IsWhiteSpace a); [apply IH; exact E|]. injection E as -> ->. reflexivity.
Qed.
Lemma stream_skip : forall s, stream_double (skip_ws s) = stream_double s.
Proof. intros s. unfold stream_double. rewrite (skip_again s (skip_ws s)) by reflexivity. reflexivity. Qed.
Lemma no_ws_head : forall s c t, skip_ws s = String c t -> IsWhiteSpace c = false.
Proof. intros s c t E. apply skip_again in E. cbn in E. destruct (IsWhiteSpace c) eqn:W; [|reflexivity]. exfalso.
  assert (L : forall q, (String.length (skip_ws q) <= String.length q)%nat) by (induction q as [|a q IH]; cbn; [lia | destruct (IsWhiteSpace a); cbn; lia]).
  specialize (L t). rewrite E in L. cbn in L. lia.
Qed.
Lemma no_number_app : forall s u, no_number s -> no_number (s +++ u).
Proof. intros s u [c [t [E R]]]. exists c, (t +++ u). split; [apply skip_app; exact E | exact R]. Qed.
Lemma stuck_step : forall buf o text, no_number (buf +++ text) -> exists b, stream_step (buf, o) text = Ok (0, (b, Some 0)) /\ no_number b.
Proof.
  intros buf o text [c [t [E [D [M [P O]]]]]]. pose proof (no_ws_head _ _ _ E) as W. unfold stream_step. cbn [fst snd].
  rewrite <- stream_skip, E. rewrite <- (sapp_nil_r (String c t)), stuck by assumption. rewrite sapp_nil_r. eexists. split; [reflexivity|].
  exists c, t. split; [cbn; rewrite W; reflexivity | auto].
Qed.
Lemma stuck_next : forall buf o text, no_number buf -> exists b, stream_step (buf, o) text = Ok (0, (b, Some 0)) /\ no_number b.
Proof. intros. apply stuck_step. apply no_number_app. assumption. Qed.

Lemma material_no_number : forall name a z d r i, no_nul name -> no_nul a -> no_number a ->
  smat_fromXML (material_elem name a z d r i) = Ok (mkSM name 0 0 0 0 0).
Proof.
  intros name a z d r i Hn Ha H. unfold smat_fromXML, material_elem.
  assert (G : forall k v, In (k, v) [("name", name); ("A", a); ("Z", z); ("density", d); ("radLength", r); ("intLength", i)]%string ->
    getXMLAttribute (XElem "material" [("name", name); ("A", a); ("Z", z); ("density", d); ("radLength", r); ("intLength", i)]%string []) k = Ok (c_str v)).
  { intros k v I. cbn in I. repeat (destruct I as [E|I]; [injection E as <- <-; reflexivity|]). destruct I. }
  rewrite (G "name" name)%string by (cbn; tauto). cbn [rbind]. rewrite (G "A" a)%string by (cbn; tauto). cbn [rbind]. rewrite !c_str_id by assumption.
  destruct (stuck_step "" None a H) as [b1 [-> N1]]. cbn [rbind fst snd]. rewrite (G "Z" z)%string by (cbn; tauto). cbn [rbind].
  destruct (stuck_next b1 (Some 0) (c_str z) N1) as [b2 [-> N2]]. cbn [rbind fst snd]. rewrite (G "density" d)%string by (cbn; tauto). cbn [rbind].
  destruct (stuck_next b2 (Some 0) (c_str d) N2) as [b3 [-> N3]]. cbn [rbind fst snd]. rewrite (G "radLength" r)%string by (cbn; tauto). cbn [rbind].
  destruct (stuck_next b3 (Some 0) (c_str r) N3) as [b4 [-> N4]]. cbn [rbind fst snd]. rewrite (G "intLength" i)%string by (cbn; tauto). cbn [rbind].
  destruct (stuck_next b4 (Some 0) (c_str i) N4) as [b5 [-> N5]]. cbn [rbind fst snd]. reflexivity.
Qed.

(** a number followed by a unit *)
Lemma digits_then_no_nul : forall d u, all_digits d = true -> no_nul u -> no_nul (d +++ u).
Proof.
  induction d as [|c d IH]; intros u D U; [exact U|]. cbn in D. apply andb_true_iff in D. destruct D as [D1 D2].
  intros b [x [y E]]. destruct x as [|a x]; cbn in E; injection E as E1 E2.
  - subst. intros Z. unfold isdigit in D1. rewrite Z in D1. discriminate.
  - apply (IH u D2 U b). exists x, y. exact E2.
Qed.
Lemma whole_text : forall ds u, all_digits ds = true -> ds <> ""%string -> nondigit_first u ->
  (forall c t, u = String c t -> c <> "."%char /\ c <> "e"%char /\ c <> "E"%char) -> stream_double (ds +++ u) = Some (atof ds, u).
Proof.
  intros ds u D N U R. destruct ds as [|c ds]; [congruence|].
  assert (C : isdigit c = true) by (cbn in D; apply andb_true_iff in D; tauto). destruct (isdigit_plain c C) as [W [M P]].
  unfold stream_double. cbn [String.append skip_ws]. rewrite W. cbn [sign_of]. rewrite M, P. cbn [orb].
  change (String c (ds +++ u)) with (String c ds +++ u). rewrite digits_of_app by assumption. destruct u as [|a u].
  - cbn [String.append String.eqb]. rewrite sapp_nil_r. reflexivity.
  - destruct (R a u eq_refl) as [R1 [R2 R3]].
    assert (E1 : ceqb a "." = false) by (apply Ascii.eqb_neq; exact R1). assert (E2 : ceqb a "e" = false) by (apply Ascii.eqb_neq; exact R2).
    assert (E3 : ceqb a "E" = false) by (apply Ascii.eqb_neq; exact R3). rewrite E1. cbv iota. rewrite E2, E3. cbn [String.append String.eqb orb].
    rewrite sapp_nil_r. reflexivity.
Qed.
Lemma material_unit : forall name ds u z d r i, no_nul name -> no_nul u -> all_digits ds = true -> ds <> ""%string -> no_number (" " +++ u) ->
  smat_fromXML (material_elem name (ds +++ " " +++ u) z d r i) = Ok (mkSM name (atof ds) 0 0 0 0).
Proof.
  intros name ds u z d r i Hn Hu D N H. unfold smat_fromXML, material_elem. set (a := ds +++ " " +++ u).
  assert (Ha : no_nul a) by (apply digits_then_no_nul; [exact D|]; intros b [x [y E]]; destruct x as [|q x]; cbn in E; injection E as E1 E2; [subst; discriminate | apply Hu; exists x, y; exact E2]).
  assert (G : forall k v, In (k, v) [("name", name); ("A", a); ("Z", z); ("density", d); ("radLength", r); ("intLength", i)]%string ->
    getXMLAttribute (XElem "material" [("name", name); ("A", a); ("Z", z); ("density", d); ("radLength", r); ("intLength", i)]%string []) k = Ok (c_str v)).
  { intros k v I. cbn in I. repeat (destruct I as [E|I]; [injection E as <- <-; reflexivity|]). destruct I. }
  rewrite (G "name" name)%string by (cbn; tauto). cbn [rbind]. rewrite (G "A" a)%string by (cbn; tauto). cbn [rbind]. rewrite !c_str_id by assumption.
  assert (F : stream_step (""%string, None) a = Ok (atof ds, (" " +++ u, Some (atof ds)))).
  { unfold stream_step, a. cbn [fst String.append]. change (String " " u) with (" " +++ u).
    rewrite whole_text; [reflexivity | exact D | exact N | reflexivity|]. intros c t E. injection E as <- _. repeat split; discriminate. }
  rewrite F. cbn [rbind fst snd]. rewrite (G "Z" z)%string by (cbn; tauto). cbn [rbind].
  destruct (stuck_next (" " +++ u) (Some (atof ds)) (c_str z) H) as [b2 [E2 N2]]. rewrite E2. cbn [rbind fst snd]. rewrite (G "density" d)%string by (cbn; tauto). cbn [rbind].
  destruct (stuck_next b2 (Some 0) (c_str d) N2) as [b3 [-> N3]]. cbn [rbind fst snd]. rewrite (G "radLength" r)%string by (cbn; tauto). cbn [rbind].
  destruct (stuck_next b3 (Some 0) (c_str r) N3) as [b4 [-> N4]]. cbn [rbind fst snd]. rewrite (G "intLength" i)%string by (cbn; tauto). cbn [rbind].
  destruct (stuck_next b4 (Some 0) (c_str i) N4) as [b5 [-> N5]]. cbn [rbind fst snd]. reflexivity.
Qed.
Lemma material_blank : forall name a z d r i, no_nul a -> skip_ws a = ""%string -> smat_fromXML (material_elem name a z d r i) = UB.
Proof.
  intros name a z d r i Ha H. unfold smat_fromXML, material_elem.
  change (getXMLAttribute _ "name") with (@Ok string (c_str name)). cbn [rbind]. change (getXMLAttribute _ "A") with (@Ok string (c_str a)). cbn [rbind]. rewrite (c_str_id a Ha).
  unfold stream_step, stream_double. cbn [fst snd String.append]. rewrite H. reflexivity.
Qed.
