(** Proofs about TPCs in files (C36). *)
From Coq Require Import ZArith List String Ascii Bool Reals Lia Lra.
From Flocq Require Import Core.
From Verif Require Import Base BaseProofs RBase XmlModel XmlSpec XmlProofs NumModel NumSpec NumProofs HxModel HxSpec HxProofs
  ParamsModel ParamsSpec ParamsProofs ParXmlModel ParXmlSpec ParXmlProofs PadXmlModel PadXmlProofs PadXmlProofs2 TrkXmlSpec TrkXmlProofs
  TpcModuleModel TpcModel TpcXmlModel TpcXmlSpec TpcModuleProofs TpcModuleProofs4 TpcProofs.
From Verif Require TpcSpec.
Import TpcSpec.
Import ListNotations.
Open Scope list_scope.
Open Scope R_scope.

(** ** The readout frequency: the first digit *)
Lemma atoi_sci : forall (neg : bool) m e, (0 <= m < 10 ^ 10)%Z ->
  atoi ((if neg then "-" else "") +++ print_sci m e)%string = Ok (if neg then - (m / 1000000000) else m / 1000000000)%Z.
Proof.
  intros neg m e M. unfold atoi. set (T := print_sci m e).
  assert (D0 : (0 <= m / 1000000000 <= 9)%Z).
  { split; [apply Z.div_pos; lia|]. apply Z.lt_succ_r. apply Z.div_lt_upper_bound; [lia|]. change (10 ^ 10)%Z with 10000000000%Z in M. lia. }
  assert (ET : exists t, T = String (digit (m / 1000000000 mod 10)) t) by (unfold T, print_sci; cbn [dec String.append]; eauto).
  assert (DD : isdigit (digit (m / 1000000000 mod 10)) = true).
  { apply digit_isdigit. pose proof (Z.mod_pos_bound (m / 1000000000) 10 ltac:(lia)). lia. }
  destruct (isdigit_plain _ DD) as [W [P1 P2]].
  assert (RS : read_sign (skip_ws ((if neg then "-"%string else ""%string) +++ T)) = (neg, T)).
  { destruct ET as [t ->]. destruct neg.
    - reflexivity.
    - cbn [String.append skip_ws]. rewrite W. cbn [read_sign]. rewrite P1, P2. reflexivity. }
  rewrite RS.
  assert (R1 : read_digits T 0 0 = (m / 1000000000, 1%nat, "." +++ dec 9 m +++ "e" +++ print_exp (e + 9))%Z%string).
  { unfold T, print_sci. rewrite read_digits_dec by lia. rewrite read_digits_stop by reflexivity.
    change (10 ^ Z.of_nat 1)%Z with 10%Z. rewrite Z.mod_small by lia. f_equal; f_equal; lia. }
  rewrite R1. set (z := (m / 1000000000)%Z) in *.
  assert (X : ((-2147483648 <=? (if neg then - z else z)) && ((if neg then - z else z) <=? 2147483647) = true)%Z%bool).
  { apply andb_true_iff. rewrite !Z.leb_le. destruct neg; lia. }
  rewrite X. reflexivity.
Qed.

Lemma first_digit : forall x, exists k, atoi (print_double x) = Ok k /\ (-9 <= k <= 9)%Z /\ (IZR k = x <-> one_digit x).
Proof.
  intros x. unfold print_double. cbv zeta.
  set (r := ten_digits x). set (m := Ztrunc (scaled_mantissa radix10 F10 r)). set (e := cexp radix10 F10 r).
  assert (R0 : r = F2R (Float radix10 m e)) by (apply (ten_digits_format x)).
  destruct (Z.eqb_spec m 0) as [M0|M0].
  - exists 0%Z. split; [reflexivity|]. split; [lia|].
    assert (X0 : x = 0).
    { assert (r = 0) by (rewrite R0, M0; unfold F2R; cbn; lra). pose proof (ten_digits_close x) as C. fold r in C. rewrite H in C.
      rewrite Rminus_0_l, Rabs_Ropp in C. pose proof (Rabs_pos x). destruct (Req_dec x 0) as [|N]; [assumption|]. apply Rabs_pos_lt in N. lra. }
    split; [intros _; exists 0%Z; split; [lia | exact X0] | intros _; symmetry; exact X0].
  - assert (B : (Z.abs m < 10 ^ 10)%Z).
    { unfold m. apply lt_IZR. rewrite abs_IZR. rewrite <- scaled_mantissa_generic by apply ten_digits_format.
      apply Rlt_le_trans with (bpow radix10 10); [|cbn; lra].
      pose proof (scaled_mantissa_lt_bpow radix10 F10 r) as H. eapply Rlt_le_trans; [exact H|]. apply bpow_le. unfold cexp, FLX_exp. lia. }
    set (k := (if (m <? 0) then - (Z.abs m / 1000000000) else Z.abs m / 1000000000)%Z).
    exists k. split; [rewrite (atoi_sci (m <? 0)%Z) by lia; reflexivity|].
    assert (D0 : (0 <= Z.abs m / 1000000000 <= 9)%Z).
    { split; [apply Z.div_pos; lia|]. apply Z.lt_succ_r. apply Z.div_lt_upper_bound; [lia|]. change (10 ^ 10)%Z with 10000000000%Z in B. lia. }
    assert (K : (-9 <= k <= 9)%Z) by (unfold k; destruct (m <? 0)%Z; lia).
    split; [exact K|]. split; [intros E; exists k; split; [exact K | symmetry; exact E]|].
    intros [j [J ->]].
    assert (J0 : j <> 0%Z).
    { intros ->. apply M0. unfold m, r. rewrite ten_digits_zero. unfold scaled_mantissa. rewrite Rmult_0_l. apply (Ztrunc_IZR 0). }
    assert (F : generic_format radix10 F10 (IZR j)).
    { apply ten_format. exists j, 0%Z. cbn. split; [lra|]. lia. }
    assert (RJ : r = IZR j) by (unfold r, ten_digits; apply round_generic; [apply _ | exact F]).
    assert (MG : mag radix10 (IZR j) = 1%Z :> Z).
    { apply mag_unique. rewrite <- abs_IZR. cbn. split; [apply IZR_le; lia | apply IZR_lt; lia]. }
    assert (EE : e = (-9)%Z) by (unfold e, cexp; rewrite RJ, MG; reflexivity).
    assert (MM : m = (j * 1000000000)%Z).
    { unfold m, scaled_mantissa. fold e. rewrite RJ, EE. cbn [Z.opp]. change (bpow radix10 9) with (IZR 1000000000). rewrite <- mult_IZR. apply Ztrunc_IZR. }
    f_equal. unfold k. rewrite MM. rewrite Z.abs_mul. change (Z.abs 1000000000) with 1000000000%Z. rewrite Z.div_mul by lia.
    destruct (Z.ltb_spec (j * 1000000000) 0); lia.
Qed.

(** ** Layouts *)
Lemma rect_rows_in : forall rows nums k rs, rect_row_elems rows k nums = Ok rs ->
  forall x, In x rs -> exists n r, x = rect_row_elem n r.
Proof.
  intros rows. induction nums as [|u nums IH]; intros k rs H x I; cbn in H; [injection H as <-; destruct I|].
  destruct (nthZ rows k) as [r|]; [|discriminate]. destruct (rect_row_elems rows (k + int32 u) nums) as [rs'| |] eqn:E; try discriminate.
  cbn in H. injection H as <-. destruct I as [<-|I]; [eauto|]. eapply IH; eauto.
Qed.
Lemma lay_element : forall p n, lay_toXML p = Ok n ->
  writable n /\ is_elem n = true /\ Value n = "PadRowLayout2D"%string.
Proof.
  intros [l|l|l|l] n H; cbn [lay_toXML] in H.
  - unfold rect_toXML in H. cbv zeta in H.
    destruct (rect_row_elems _ _ _) as [rs| |] eqn:E; try discriminate. cbn [rbind] in H. injection H as <-.
    split; [|split; reflexivity]. apply (node_writable _ (rect_pairs l)); [reflexivity | apply rect_pairs_ok|].
    intros x I. destruct (rect_rows_in _ _ _ _ E x I) as [k [r ->]]. split; [apply rect_row_writable | reflexivity].
  - injection H as <-. split; [|split; reflexivity]. apply (leaf_writable _ (fps_pairs l)); [reflexivity | apply fps_pairs_ok].
  - injection H as <-. split; [|split; reflexivity]. apply (leaf_writable _ (fpa_pairs l)); [reflexivity | apply fpa_pairs_ok].
  - injection H as <-. split; [|split; reflexivity]. apply (node_writable _ [("type", "VersatileDiskRowLayout"); ("rMin", print_double (VdModel.v_e0 l))]%string);
      [reflexivity | pairs|]. intros x I. apply in_map_iff in I. destruct I as [r [<- _]]. split; [apply vd_row_writable | reflexivity].
Qed.
Lemma reload_lay : forall p, reload lay_toXML lay_fromXML p = rbind (lay_toXML p) lay_fromXML.
Proof.
  intros p. unfold reload. destruct (lay_toXML p) as [n| |] eqn:E; [|reflexivity..]. cbn [rbind].
  destruct (lay_element p n E) as [W [I _]]. rewrite via_writable by assumption. reflexivity.
Qed.

(** ** One module *)
Definition value_pairs (v : string) : list (string * string) := [("value", v)]%string.
Lemma value_int_ok : forall z, pairs_ok (value_pairs (print_int z)). Proof. intros z. unfold value_pairs. pairs. Qed.
Lemma value_double_ok : forall z, pairs_ok (value_pairs (print_double z)). Proof. intros z. unfold value_pairs. pairs. Qed.
Definition offset_pairs (a b : R) : list (string * string) := [("x_r", print_double a); ("y_phi", print_double b)]%string.
Lemma offset_pairs_ok : forall a b, pairs_ok (offset_pairs a b). Proof. intros a b. unfold offset_pairs. pairs. Qed.

Definition module_fixed (m : module) (lay : xnode) : list xnode :=
  [value_elem "moduleID" (print_int (getModuleID m));
   value_elem "readoutFrequency" (print_double (TpcModuleModel.getReadoutFrequency m)); lay;
   XElem "offset" (attrs_of (offset_pairs (fst (getOffset m)) (snd (getOffset m)))) []] ++
  (match getZPosition m with Some z => [value_elem "zPosition" (print_double z)] | None => [] end) ++
  [value_elem "angle" (print_double (getAngle m)); value_elem "enlargeActiveAreaBy" (print_double (getBorderWidth m))].
Definition module_elem (m : module) (ps : params) (lay : xnode) : xnode := XElem "module" (attrs_of []) (module_fixed m lay ++ all_elems ps).

Lemma module_element : forall m ps, sorted_params ps ->
  module_toXML (m, ps) = rmap (module_elem m ps) (lay_toXML (m_layout m)).
Proof.
  intros m ps S. unfold module_toXML. destruct (lay_toXML (m_layout m)) as [lay| |]; [|reflexivity..]. cbn [rbind rmap].
  rewrite to_xml_elems by exact S. cbn [rbind]. unfold module_elem, module_fixed. change (attrs_of []) with (@nil (string * string)). rewrite <- !app_assoc. reflexivity.
Qed.
Lemma module_fixed_in : forall m lay, writable lay -> is_elem lay = true -> Value lay = "PadRowLayout2D"%string ->
  forall x, In x (module_fixed m lay) -> writable x /\ is_elem x = true /\ Value x <> "parameter"%string.
Proof.
  intros m lay W E V x I. unfold module_fixed in I.
  assert (VD : forall n v, xml_nameb n = true -> n <> "parameter"%string -> writable (value_elem n (print_double v)) /\ is_elem (value_elem n (print_double v)) = true /\ Value (value_elem n (print_double v)) <> "parameter"%string).
  { intros n v N D. split; [apply leaf_writable; [exact N | apply value_double_ok] | split; [reflexivity | exact D]]. }
  cbn [app] in I. destruct I as [<-|[<-|[<-|[<-|I]]]].
  - split; [apply leaf_writable; [reflexivity | apply value_int_ok] | split; [reflexivity | discriminate]].
  - apply VD; [reflexivity | discriminate].
  - split; [exact W|]. split; [exact E|]. rewrite V. discriminate.
  - split; [apply leaf_writable; [reflexivity | apply offset_pairs_ok] | split; [reflexivity | discriminate]].
  - apply in_app_or in I. destruct I as [I|I].
    + destruct (getZPosition m); [|destruct I]. destruct I as [<-|[]]. apply VD; [reflexivity | discriminate].
    + destruct I as [<-|[<-|[]]]; apply VD; reflexivity || discriminate.
Qed.
Lemma module_writable : forall m ps lay, sorted_params ps -> text_ok_params ps -> writable lay -> is_elem lay = true -> Value lay = "PadRowLayout2D"%string ->
  writable (module_elem m ps lay) /\ is_elem (module_elem m ps lay) = true.
Proof.
  intros m ps lay S T W E V. split; [|reflexivity]. apply det_writable; [reflexivity | apply no_pairs | exact S | exact T|].
  intros x I. destruct (module_fixed_in m lay W E V x I) as [A [B _]]. split; assumption.
Qed.

(** reading one module: the calls of [placing] on a new module, until one of them fails *)
Definition call_ok (m : module) (c : mcall) : result module := outcome (call_module m c).
Lemma value_double : forall n x, get_double (value_elem n (print_double x)) "value" = Ok (reread x).
Proof. intros n x. unfold get_double, value_elem. rewrite (lookup n (value_pairs (print_double x))) by apply value_double_ok. reflexivity. Qed.
Lemma value_int : forall n z, is_int z -> get_int (value_elem n (print_int z)) "value" = Ok z.
Proof. intros n z I. unfold get_int, value_elem. rewrite (lookup n (value_pairs (print_int z))) by apply value_int_ok. cbn. apply int_kept. exact I. Qed.
Lemma value_atoi : forall n x, get_int (value_elem n (print_double x)) "value" = atoi (print_double x).
Proof. intros n x. unfold get_int, value_elem. rewrite (lookup n (value_pairs (print_double x))) by apply value_double_ok. reflexivity. Qed.

Lemma module_read : forall m ps lay type id k, sorted_params ps -> text_ok_params ps -> is_int (getModuleID m) ->
  is_elem lay = true -> Value lay = "PadRowLayout2D"%string -> atoi (print_double (TpcModuleModel.getReadoutFrequency m)) = Ok k ->
  module_fromXML (module_elem m ps lay) None type id =
  rbind (lay_fromXML lay) (fun q => rmap (fun m' => (m', back ps)) (rfold call_ok (placing m) (new_module (getModuleID m) q type (IZR k)))).
Proof.
  intros m ps lay type id k S T I E V A.
  assert (P : params_from_xml (module_elem m ps lay) params_empty = Ok (back ps)).
  { apply det_params; [exact S | exact T|]. intros x X. unfold module_fixed in X. cbn [app] in X.
    destruct X as [<-|[<-|[<-|[<-|X]]]]; try discriminate; [rewrite V; discriminate|]. apply in_app_or in X.
    destruct X as [X|[<-|[<-|[]]]]; try discriminate. destruct (getZPosition m); [destruct X as [<-|[]]; discriminate | destruct X]. }
  assert (CH : forall n, n <> "parameter"%string -> tag (module_elem m ps lay) None n = FirstChildElement n (XElem "module" (attrs_of []) (module_fixed m lay))).
  { intros n N. unfold tag, module_elem. rewrite det_child by assumption. destruct (FirstChildElement _ _); reflexivity. }
  unfold module_fromXML. rewrite P. rewrite !CH by discriminate. unfold FirstChildElement, module_fixed. cbn [children app find].
  assert (B : forall n, (Value lay =? n)%string && is_elem lay = ("PadRowLayout2D" =? n)%string) by (intros; rewrite V, E; apply andb_true_r).
  rewrite !B. cbn [Value value_elem is_elem String.eqb Ascii.eqb Bool.eqb andb].
  rewrite value_int by exact I. cbn [rbind required]. rewrite value_atoi, A. cbn [rbind].
  destruct (lay_fromXML lay) as [q| |]; [|reflexivity..]. cbn [rbind]. unfold placing.
  assert (OF : forall f, if_there (Some (XElem "offset" (attrs_of (offset_pairs (fst (getOffset m)) (snd (getOffset m)))) []))
     (fun e => rbind (get_double e "x_r") (fun x => rbind (get_double e "y_phi") (fun y => Ok (setOffset f x y)))) f
     = call_ok f (MOffset (reread (fst (getOffset m))) (reread (snd (getOffset m))))).
  { intros f. cbn [if_there]. unfold get_double. rewrite !lookup by apply offset_pairs_ok. reflexivity. }
  rewrite OF. cbn [app rfold]. destruct (call_ok _ (MOffset _ _)) as [m1| |]; [|reflexivity..]. cbn [rbind].
  destruct (getZPosition m) as [z|]; cbn [app find Value value_elem is_elem String.eqb Ascii.eqb Bool.eqb andb if_there rfold];
    rewrite !value_double; cbn [rbind].
  - unfold call_ok at 1. cbn [call_module]. destruct (setZPosition m1 (reread z)) as [m2 u|m2 x|]; [|reflexivity..]. cbn [outcome rbind].
    unfold call_ok at 1. cbn [call_module]. destruct (setAngle m2 _) as [m3 u3|m3 x|]; [|reflexivity..]. cbn [outcome rbind].
    unfold call_ok. cbn [call_module]. destruct (setBorderWidth m3 _) as [m4 u4|m4 x|]; reflexivity.
  - unfold call_ok at 1. cbn [call_module]. destruct (setAngle m1 _) as [m3 u3|m3 x|]; [|reflexivity..]. cbn [outcome rbind].
    unfold call_ok. cbn [call_module]. destruct (setBorderWidth m3 _) as [m4 u4|m4 x|]; reflexivity.
Qed.
