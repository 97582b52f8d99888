(** Proofs about whole geometries in files (C38): what is loaded. *)
From Coq Require Import ZArith List String Ascii Bool Reals Lia Lra Sorted.
From Verif Require Import Base BaseProofs RBase VecModel XmlModel XmlSpec XmlProofs XmlProofs3 NumModel NumSpec NumProofs HxModel HxSpec HxProofs
  ParamsModel ParamsSpec ParamsProofs ParXmlModel ParXmlSpec ParXmlProofs CaloModel CaloXmlModel CaloXmlProofs ZpModel FtdModel
  PadXmlModel PadXmlProofs PadXmlProofs2 TrkModel TrkXmlModel TrkXmlSpec TrkXmlProofs TrkXmlProofs2 TrkXmlProofs3 TrkXmlProofs4
  TpcModuleModel TpcModel TpcXmlModel TpcXmlSpec TpcXmlProofs TpcXmlProofs2 GearXmlModel GearXmlSpec GearXmlProofs GearXmlProofs2 GearXmlProofs3.
Import ListNotations.
Open Scope list_scope.

(** ** Calorimeters keep their shape and their parameters *)
Lemma calo_keeps : forall o y, params_ok (snd o) -> reload calo_toXML calo_fromXML o = Ok y ->
  c_type (fst y) = c_type (fst o) /\ snd y = back (snd o).
Proof.
  intros [c ps] y P R. cbn [fst snd] in *. rewrite (reload_good _ _ [] _ no_pairs (calo_good (c, ps) P)) in R. destruct (ok_params ps P) as [S T].
  unfold calo_toXML in R. destruct (getExtent c) as [c' e|? ?|]; try discriminate.
  unfold calo_head in R. destruct (Nat.eqb (List.length e) 4) eqn:L4; [|discriminate]. cbn [rbind] in R. rewrite to_xml_elems in R by exact S.
  cbn [rbind] in R. destruct e as [|a [|b [|z1 [|z2 [|]]]]]; try discriminate L4. cbn [nth] in R. clear L4.
  set (LE := layer_elems (mkLayer 0 0 0 0 0) 0 (c_layout c)) in R.
  set (lay := XElem "layout" (attrs_of (layout_pairs c)) []). set (dim := XElem "dimensions" (attrs_of (dims_pairs c a b z1 z2)) []).
  change (calo_fromXML (XElem "detector" [] ([lay; dim] ++ LE ++ all_elems ps)) = Ok y) in R.
  rewrite app_assoc in R.
  assert (PB : params_from_xml (XElem "detector" [] (([lay; dim] ++ LE) ++ all_elems ps)) params_empty = Ok (back ps)).
  { apply det_params; [exact S | exact T|]. intros x [<-|[<-|I]]; [discriminate..|]. destruct (layer_elems_in _ _ _ _ I) as [k [l ->]]. discriminate. }
  set (n := XElem "detector" [] (([lay; dim] ++ LE) ++ all_elems ps)) in *.
  assert (F1 : FirstChildElement "layout" n = Some lay) by reflexivity.
  assert (F2 : FirstChildElement "dimensions" n = Some dim) by reflexivity.
  assert (G1 : getXMLAttribute lay "type" = Ok (match c_type c with BARREL => "Barrel" | ENDCAP => "Endcap" end)%string).
  { apply get_attr; [apply layout_pairs_ok | cbn; tauto]. }
  clearbody n lay dim LE.
  unfold calo_fromXML in R. rewrite F1, G1, F2, PB in R. cbn [rbind] in R.
  destruct (c_type c); [change (CaloXmlModel.lower "Barrel") with "barrel"%string in R | change (CaloXmlModel.lower "Endcap") with "endcap"%string in R];
    cbn [String.eqb Ascii.eqb Bool.eqb negb andb] in R; peel R; apply ok_inj in R; subst y; cbn [fst snd];
    repeat match goal with H : rbind _ _ = Ok _ |- _ => peel H end;
    repeat match goal with H : Ok _ = Ok _ |- _ => apply ok_inj in H; subst end; split; reflexivity.
Qed.
Lemma lands_same : forall s o y, c_type (fst y) = c_type (fst o) -> lands s y = lands s o.
Proof. intros s o y E. unfold lands. rewrite E. reflexivity. Qed.
Lemma lands_forward : forall s o, forward (lands s o) = true -> lands s o = s.
Proof. intros [] o; unfold lands; destruct (c_type (fst o)); cbn; try discriminate; reflexivity. Qed.
Lemma lands_forward' : forall s o, forward (lands s o) = forward s.
Proof. intros [] o; unfold lands; destruct (c_type (fst o)); reflexivity. Qed.
Lemma back_double_val : forall p k v, sorted_params p -> getDoubleVal p k = Ok v -> exists w, getDoubleVal (back p) k = Ok w.
Proof.
  intros p k v S E. unfold getDoubleVal, lookup_or_throw in *. cbn [back p_double]. rewrite mapopt_find by (apply (S TDouble)).
  destruct (sm_find k (p_double p)); [|discriminate]. eexists. reflexivity.
Qed.
Lemma stored_back : forall g s o y, inv g -> (forall s o, g_calo g s = Some o -> params_ok (snd o)) -> g_calo g s = Some o ->
  reload calo_toXML calo_fromXML o = Ok y -> as_stored (lands s y) y = y.
Proof.
  intros g s o y I T G R. destruct (calo_keeps o y (T s o G) R) as [C P]. unfold as_stored. rewrite lands_forward'.
  destruct (forward s) eqn:F; [|reflexivity]. destruct (inv_angle g I s o F G) as [v A].
  destruct (back_double_val _ _ _ (proj1 (ok_params _ (T s o G))) A) as [w B]. rewrite <- P in B. unfold with_angle. rewrite B. destruct y; reflexivity.
Qed.

(** ** Which calorimeter ends up where *)
Definition lands_in (g0 : content) (s t : calo_slot) : Prop := exists o, calo_val g0 t = Some o /\ lands t o = s.
Lemma put_calos_at : forall g0 l g s y, g_calo (put_calos g0 l g) s = Some y <->
  (exists a t b o, l = a ++ t :: b /\ calo_val g0 t = Some o /\ lands t o = s /\ as_stored s o = y /\ forall t', In t' b -> ~ lands_in g0 s t') \/
  (g_calo g s = Some y /\ forall t', In t' l -> ~ lands_in g0 s t').
Proof.
  intros g0 l. induction l as [|t l IH]; intros g s y.
  - cbn. split; [intros H; right; split; [exact H | intros t []] | intros [(a & t & b & o & E & _)|[H _]]; [destruct a; discriminate | exact H]].
  - unfold put_calos in *. cbn [fold_left]. rewrite IH. clear IH. destruct (calo_val g0 t) as [o|] eqn:V; cbn [store].
    + unfold put_calo, set_calo. cbn [g_calo]. destruct (calo_slot_eqb_spec s (lands t o)) as [->|N].
      * split.
        -- intros [(a & t1 & b & o1 & -> & H)|[H1 H2]]; [left; exists (t :: a), t1, b, o1; split; [reflexivity | exact H]|].
           injection H1 as H1. left. exists [], t, l, o. repeat split; assumption.
        -- intros [(a & t1 & b & o1 & E & H)|[_ H2]].
           ++ destruct a as [|t2 a]; injection E as E1 E2; subst.
              ** right. destruct H as (V1 & L & A & N). rewrite V in V1. injection V1 as <-. split; [rewrite A; reflexivity | exact N].
              ** left. exists a, t1, b, o1. split; [reflexivity | exact H].
           ++ exfalso. apply (H2 t (or_introl eq_refl)). exists o. auto.
      * split.
        -- intros [(a & t1 & b & o1 & -> & H)|[H1 H2]]; [left; exists (t :: a), t1, b, o1; split; [reflexivity | exact H]|].
           right. split; [exact H1|]. intros t' [<-|I]; [|apply H2; exact I]. intros [o' [V' L']]. rewrite V in V'. injection V' as <-. apply N. symmetry. exact L'.
        -- intros [(a & t1 & b & o1 & E & H)|[H1 H2]].
           ++ destruct a as [|t2 a]; injection E as E1 E2; subst.
              ** destruct H as (V1 & L & _). rewrite V in V1. injection V1 as <-. exfalso. apply N. symmetry. exact L.
              ** left. exists a, t1, b, o1. split; [reflexivity | exact H].
           ++ right. split; [exact H1 | intros t' I; apply H2; right; exact I].
    + split.
      * intros [(a & t1 & b & o1 & -> & H)|[H1 H2]]; [left; exists (t :: a), t1, b, o1; split; [reflexivity | exact H]|].
        right. split; [exact H1|]. intros t' [<-|I]; [|apply H2; exact I]. intros [o' [V' L']]. rewrite V in V'. discriminate.
      * intros [(a & t1 & b & o1 & E & H)|[H1 H2]].
        -- destruct a as [|t2 a]; injection E as E1 E2; subst.
           ++ destruct H as (V1 & _). rewrite V in V1. discriminate.
           ++ left. exists a, t1, b, o1. split; [reflexivity | exact H].
        -- right. split; [exact H1 | intros t' I; apply H2; right; exact I].
Qed.
Lemma order_nodup : NoDup saved_order.
Proof. repeat constructor; cbn; intuition discriminate. Qed.
Lemma split_nodup : forall {A} (l : list A) a x b a' b', NoDup l -> l = a ++ x :: b -> l = a' ++ x :: b' -> b = b'.
Proof.
  intros A l a. revert l. induction a as [|z a IH]; intros l x b a' b' N E E'.
  - subst l. destruct a' as [|z' a']; [injection E' as E; exact E|]. injection E' as -> ->. inversion N as [|? ? NI _]. exfalso. apply NI. apply in_elt.
  - subst l. destruct a' as [|z' a'].
    + injection E' as -> <-. inversion N as [|? ? NI _]. exfalso. apply NI. apply in_elt.
    + injection E' as -> E'. inversion N as [|? ? _ N']. apply (IH (a ++ x :: b) x b a' b' N' eq_refl E').
Qed.

Lemma calos_loaded : forall g, inv g -> texts_ok g -> all_come_back g -> calorimeters_loaded g (final g).
Proof.
  intros g I T B s y. destruct T as (_ & _ & _ & T & _). destruct B as (_ & B & _).
  assert (E : g_calo (final g) s = g_calo (put_calos g calo_order (store set_tpc (val tpc_toXML tpc_fromXML (g_tpc g))
    (store set_field (val field_toXML field_fromXML (g_field g)) (set_name new_content (written_name (g_name g)))))) s).
  { unfold final. unfold add_mats. cbn [g_calo].
    rewrite (generics_keep g_calo) by reflexivity. do 6 rewrite (store_keeps g_calo) by reflexivity. reflexivity. }
  assert (V : forall t o, calo_val g t = Some o <-> exists x, g_calo g t = Some x /\ reload calo_toXML calo_fromXML x = Ok o).
  { intros t o. unfold calo_val, val. destruct (g_calo g t) as [x|]; [|split; [discriminate | intros [x [F _]]; discriminate]].
    destruct (reload calo_toXML calo_fromXML x) eqn:R.
    - split; [intros F; injection F as ->; eauto | intros [x' [F H]]; injection F as <-; congruence].
    - split; [discriminate | intros [x' [F H]]; injection F as <-; congruence].
    - split; [discriminate | intros [x' [F H]]; injection F as <-; congruence]. }
  assert (L : forall t t', lands_in g t t' <-> exists o', g_calo g t' = Some o' /\ lands t' o' = t).
  { intros t t'. unfold lands_in. split.
    - intros [o [H <-]]. apply V in H. destruct H as [x [G R]]. exists x. split; [exact G|]. symmetry. apply lands_same. apply (calo_keeps x o (T t' x G) R).
    - intros [x [G <-]]. specialize (B t'). rewrite G in B. destruct B as [o R]. exists o. split; [apply V; eauto|]. apply lands_same. apply (calo_keeps x o (T t' x G) R). }
  rewrite E, put_calos_at. split.
  - intros [(a & t & b & o & O & H & LA & A & N)|[H _]].
    + apply V in H. destruct H as [x [G R]]. pose proof (stored_back g t x o I T G R) as SB. rewrite LA in SB. rewrite SB in A. subst o.
      exists t, x. split; [exact G|]. split; [rewrite <- LA; symmetry; apply lands_same; apply (calo_keeps x y (T t x G) R)|]. split; [exact R|].
      intros t' o' [a' [b' [O' IN]]] G' LA'. pose proof (split_nodup _ _ _ _ _ _ order_nodup O O') as <-. apply (N t' IN). apply L. eauto.
    + exfalso. rewrite (store_keeps g_calo), (store_keeps g_calo) in H by reflexivity. discriminate.
  - intros [t [x [G [LA [R N]]]]]. left. destruct (in_split _ _ (all_slots t)) as [a [b O]]. exists a, t, b, y. split; [exact O|].
    assert (LY : lands t y = s) by (rewrite <- LA; apply lands_same; apply (calo_keeps x y (T t x G) R)).
    split; [apply V; eauto|]. split; [exact LY|]. split; [rewrite <- LY; apply (stored_back g t x y I T G R)|].
    intros t' IN H. apply L in H. destruct H as [o' [G' L']]. apply (N t' o'); [exists a, b; auto | exact G' | exact L'].
Qed.

(** ** The rest *)
Lemma store_gets : forall {O} (f : content -> option O) (put : content -> O -> content) v g, (forall g y, f (put g y) = Some y) -> f g = None -> f (store put v g) = v.
Proof. intros O f put [y|] g H N; [apply H | exact N]. Qed.
Definition vxd_of (g : content) := g_zp g VXD.
Definition sit_of (g : content) := g_zp g SIT.
Definition set_of (g : content) := g_zp g SET.

Lemma generics_at : forall l g k, NoDup (sm_keys l) -> sm_find k (g_generic (put_generics l g)) =
  match sm_find k l with Some p => Some (back p) | None => sm_find k (g_generic g) end.
Proof.
  intros l. unfold put_generics. induction l as [|[k0 p0] l IH]; intros g k N; [reflexivity|]. cbn [fold_left fst snd sm_keys map] in *. inversion N as [|? ? NI N']; subst.
  rewrite IH by exact N'. cbn [sm_find]. cbn [set_generic g_generic]. destruct (String.eqb_spec k k0) as [->|NE].
  - rewrite (proj2 (sm_find_none_iff l k0)) by exact NI. apply sm_find_set_same.
  - destruct (sm_find k l); [reflexivity|]. apply sm_find_set_other. congruence.
Qed.
Lemma mats_at : forall l k, (forall k m, In (k, m) l -> sm_name m = k) ->
  sm_find k (map (fun m => (sm_name m, reread_smat m)) (map snd l)) = match sm_find k l with Some m => Some (reread_smat m) | None => None end.
Proof.
  induction l as [|[k0 m0] l IH]; intros k H; [reflexivity|]. cbn [map snd sm_find]. rewrite (H k0 m0 (or_introl eq_refl)).
  destruct (String.eqb_spec k k0); [reflexivity|]. apply IH. intros k1 m1 I. apply H. right. exact I.
Qed.
Lemma sorted_nodup : forall l, StronglySorted slt l -> NoDup l.
Proof.
  induction l as [|x l IH]; intros S; [constructor|]. inversion S as [|? ? SS F]; subst. rewrite Forall_forall in F. constructor; [|apply IH; exact SS].
  intros I. apply (slt_irrefl x). apply F. exact I.
Qed.

Lemma rest_loaded : forall g, inv g -> texts_ok g -> all_come_back g -> loaded_apart_from_calorimeters g (final g).
Proof.
  intros g I T B. pose proof (mats_clean g I T) as MC. destruct T as (_ & TF & _ & _ & _ & _ & _ & _ & TG & _). destruct B as (B1 & _ & B2 & B3 & B4 & B5).
  unfold final. set (st := put_generics _ _).
  unfold loaded_apart_from_calorimeters, add_mats. cbn [g_name g_field g_tpc g_zp g_ftd g_tp g_si g_generic g_mat]. subst st.
  repeat split.
  - kept g_name. unfold set_name. cbn [g_name]. reflexivity.
  - kept g_field. rewrite (store_gets g_field); [|reflexivity | reflexivity].
    apply val_back. destruct (g_field g) as [[b ps]|] eqn:G; [|exact Logic.I]. destruct (ok_params ps (TF _ eq_refl)) as [S TT].
    eexists. apply reload_field; assumption.
  - kept g_tpc. rewrite (store_gets g_tpc); [apply val_back; exact B1 | reflexivity | kept g_tpc; reflexivity].
  - intros []; specialize (B2 VXD) as Z1; specialize (B2 SIT) as Z2; specialize (B2 SET) as Z3.
    + match goal with |- back_in _ _ _ (g_zp ?x VXD) => change (g_zp x VXD) with (vxd_of x) end. kept vxd_of.
      rewrite (store_gets vxd_of); [apply val_back; exact Z1 | reflexivity | kept vxd_of; reflexivity].
    + match goal with |- back_in _ _ _ (g_zp ?x SIT) => change (g_zp x SIT) with (sit_of x) end. kept sit_of.
      rewrite (store_gets sit_of); [apply val_back; exact Z2 | reflexivity | kept sit_of; reflexivity].
    + match goal with |- back_in _ _ _ (g_zp ?x SET) => change (g_zp x SET) with (set_of x) end. kept set_of.
      rewrite (store_gets set_of); [apply val_back; exact Z3 | reflexivity | kept set_of; reflexivity].
  - kept g_ftd. rewrite (store_gets g_ftd); [apply val_back; exact B3 | reflexivity | kept g_ftd; reflexivity].
  - kept g_tp. rewrite (store_gets g_tp); [apply val_back; exact B4 | reflexivity | kept g_tp; reflexivity].
  - kept g_si. rewrite (store_gets g_si); [apply val_back; exact B5 | reflexivity | kept g_si; reflexivity].
  - intros k. rewrite generics_at by (apply sorted_nodup; apply (inv_generic g I)).
    destruct (sm_find k (g_generic g)) as [p|] eqn:G.
    + exists (back p). split; [|reflexivity]. destruct (ok_params p (proj2 (TG k p G))) as [S TT]. apply save_load; assumption.
    + rewrite (store_keeps g_generic), (store_keeps g_generic), (store_keeps g_generic) by reflexivity. kept g_generic. reflexivity.
  - intros k. kept g_mat. cbn [set_name new_content g_mat app]. rewrite mats_at by (apply (inv_name g I)).
    destruct (sm_find k (g_mat g)) as [m|] eqn:G; [|reflexivity]. exists (reread_smat m). split; [|reflexivity].
    apply material_back. apply MC. apply in_map_iff. exists (k, m). split; [reflexivity|]. apply (sm_find_some_iff _ _ (inv_mat g I)). exact G.
Qed.
