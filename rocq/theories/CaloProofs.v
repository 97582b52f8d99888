From Coq Require Import ZArith List String Reals Lia Lra.
From Verif Require Import Base RBase CaloModel CaloSpec.
Import ListNotations.
Open Scope R_scope.

Definition next_pos (v : layout) : R :=
  match back_ v with None => 0 | Some b => L_Distance b + L_Thickness b end.

Lemma back_snoc : forall v l, back_ (v ++ [l]) = Some l.
Proof.
  intros. unfold back_. rewrite app_length. simpl. replace (List.length v + 1 - 1)%nat with (List.length v) by lia.
  rewrite nth_error_app2 by lia. now rewrite Nat.sub_diag.
Qed.

(** the layers a history appends, given the next position *)
Fixpoint appended (pos : R) (ks : list calo_call) : layout :=
  match ks with
  | [] => []
  | CPos d t c0 c1 a :: r => mkLayer d t a c0 c1 :: appended (d + t) r
  | CAdd t c0 c1 a :: r => mkLayer pos t a c0 c1 :: appended (pos + t) r
  | CExt :: r => appended pos r
  end.

Lemma ext_ok : forall c, exists c' v, getExtent c = SOk c' v /\ c_layout c' = c_layout c /\
  c_type c' = c_type c /\ c_sym c' = c_sym c /\ c_phi c' = c_phi c /\
  (c_layout c = [] -> c' = c /\ v = c_extent c) /\
  (c_layout c <> [] -> v = c_extent c' /\
     c_extent c' = match c_type c with BARREL => set_nth 1 (next_pos (c_layout c)) (c_extent c)
                                     | ENDCAP => set_nth 3 (next_pos (c_layout c)) (c_extent c) end).
Proof.
  intros c. unfold getExtent, getNLayers. destruct (Z.ltb_spec 0 (Z.of_nat (List.length (c_layout c)))) as [H|H].
  - unfold getDistance, getThickness, at_.
    replace (Z.of_nat (List.length (c_layout c)) - 1)%Z with (Z.of_nat (List.length (c_layout c) - 1)) by lia.
    rewrite nthZ_of_nat. destruct (nth_error (c_layout c) (List.length (c_layout c) - 1)) eqn:E.
    + cbn [rmap rbind]. eexists; eexists; split; [reflexivity|]. cbn. do 4 (split; [reflexivity|]). split.
      * intros E0. rewrite E0 in H. cbn in H. lia.
      * intros _. split; [reflexivity|]. unfold next_pos, back_. rewrite E. destruct (c_type c); reflexivity.
    + apply nth_error_None in E. lia.
  - exists c, (c_extent c). do 5 (split; [reflexivity|]). split; [auto|].
    intros N. destruct (c_layout c); [congruence|cbn in H; lia].
Qed.

Lemma do_layout : forall c k, c_layout (calo_do c k) = c_layout c ++ appended (next_pos (c_layout c)) [k].
Proof.
  intros c [t c0 c1 a|d t c0 c1 a|]; cbn; try reflexivity.
  destruct (ext_ok c) as [c' [v [E [EL _]]]]. rewrite E. now rewrite EL, app_nil_r.
Qed.
Lemma appended_cons : forall k r pos, appended pos (k :: r) = appended pos [k] ++
  appended (match k with CPos d t _ _ _ => d + t | CAdd t _ _ _ => pos + t | CExt => pos end) r.
Proof. destruct k; reflexivity. Qed.
Lemma next_do : forall c k, next_pos (c_layout (calo_do c k)) =
  match k with CPos d t _ _ _ => d + t | CAdd t _ _ _ => next_pos (c_layout c) + t | CExt => next_pos (c_layout c) end.
Proof.
  intros. rewrite do_layout. destruct k; cbn; unfold next_pos at 1; rewrite ?back_snoc; cbn; auto.
  now rewrite app_nil_r.
Qed.
Lemma run_layout : forall h c, c_layout (calo_run c h) = c_layout c ++ appended (next_pos (c_layout c)) h.
Proof.
  induction h as [|k r IH]; intros c.
  - cbn. now rewrite app_nil_r.
  - change (calo_run c (k :: r)) with (calo_run (calo_do c k) r). rewrite IH, next_do, do_layout, (appended_cons k r).
    now rewrite <- app_assoc.
Qed.
Lemma run_fixed : forall h c, c_type (calo_run c h) = c_type c /\ c_sym (calo_run c h) = c_sym c /\ c_phi (calo_run c h) = c_phi c.
Proof.
  induction h as [|k r IH]; intros c; [cbn; auto|].
  change (calo_run c (k :: r)) with (calo_run (calo_do c k) r). destruct (IH (calo_do c k)) as [A [B C]]. rewrite A, B, C.
  destruct k; cbn; auto. destruct (ext_ok c) as [c' [v [E [_ [T [S [P _]]]]]]]. rewrite E. auto.
Qed.
(** three of the four extent entries never change, the fourth matters only while there are no layers *)
Lemma set_nth1 : forall x (a b c d : R), set_nth 1 x [a; b; c; d] = [a; x; c; d]. Proof. reflexivity. Qed.
Lemma set_nth3 : forall x (a b c d : R), set_nth 3 x [a; b; c; d] = [a; b; c; x]. Proof. reflexivity. Qed.

Lemma run_extent : forall h c a b z1 z2, c_extent c = [a; b; z1; z2] ->
  exists b' z2', c_extent (calo_run c h) = [a; b'; z1; z2'] /\
  match c_type c with BARREL => z2' = z2 | ENDCAP => b' = b end /\
  (c_layout (calo_run c h) = [] -> b' = b /\ z2' = z2).
Proof.
  induction h as [|k r IH]; intros c a b z1 z2 E.
  - cbn. exists b, z2. split; auto. split; [destruct (c_type c); auto|auto].
  - change (calo_run c (k :: r)) with (calo_run (calo_do c k) r).
    assert (NE : k <> CExt -> c_layout (calo_run (calo_do c k) r) <> []).
    { intros N. rewrite run_layout, do_layout. destruct k; [| |congruence]; cbn;
        destruct (c_layout c); cbn; congruence. }
    destruct k as [t c0 c1 ab|d t c0 c1 ab|].
    + destruct (IH (calo_do c (CAdd t c0 c1 ab)) a b z1 z2 E) as [b' [z2' [X [Y _]]]]. exists b', z2'. split; [exact X|].
      split; [exact Y|]. intros N. exfalso. apply NE in N; [auto|congruence].
    + destruct (IH (calo_do c (CPos d t c0 c1 ab)) a b z1 z2 E) as [b' [z2' [X [Y _]]]]. exists b', z2'. split; [exact X|].
      split; [exact Y|]. intros N. exfalso. apply NE in N; [auto|congruence].
    + cbn [calo_do] in *. destruct (ext_ok c) as [c' [v [Ev [EL [ET [_ [_ [H0 H1]]]]]]]]. rewrite Ev in *.
      destruct (c_layout c) as [|l0 lr] eqn:El.
      * destruct (H0 eq_refl) as [-> _]. destruct (IH c a b z1 z2 E) as [b' [z2' [X [Y Z]]]]. exists b', z2'. auto.
      * destruct (H1 ltac:(congruence)) as [_ X]. rewrite E in X.
        assert (N : c_layout (calo_run c' r) <> []) by (rewrite run_layout, EL; cbn; congruence).
        destruct (c_type c) eqn:T; [rewrite set_nth1 in X|rewrite set_nth3 in X];
          destruct (IH c' _ _ _ _ X) as [b' [z2' [X' [Y' _]]]]; rewrite ET in Y'; exists b', z2'; rewrite ?Y'; split;
          auto; try (split; [auto|intros; congruence]); now rewrite X', Y'.
Qed.

Lemma appended_len : forall ks pos, List.length (appended pos ks) = List.length (layers_of ks).
Proof. induction ks as [|[] r IH]; intros; cbn; auto. Qed.
Lemma appended_nth : forall ks pos i k s, nth_error (layers_of ks) i = Some k -> nth_error (starts pos ks) i = Some s ->
  exists l, nth_error (appended pos ks) i = Some l /\ L_Distance l = s /\
    match k with CAdd t c0 c1 a => l = mkLayer s t a c0 c1 | CPos d t c0 c1 a => l = mkLayer s t a c0 c1 /\ s = d | CExt => False end.
Proof.
  induction ks as [|[t c0 c1 a|d t c0 c1 a|] r IH]; intros pos i k s Hk Hs.
  - destruct i; discriminate.
  - destruct i; cbn in *; [inversion Hk; inversion Hs; subst; eexists; split; [reflexivity|]; cbn; auto|].
    exact (IH _ _ _ _ Hk Hs).
  - destruct i; cbn in *; [inversion Hk; inversion Hs; subst; eexists; split; [reflexivity|]; cbn; auto|].
    exact (IH _ _ _ _ Hk Hs).
  - exact (IH _ _ _ _ Hk Hs).
Qed.
Lemma starts_len : forall ks pos, List.length (starts pos ks) = List.length (layers_of ks).
Proof. induction ks as [|[] r IH]; intros; cbn; auto. Qed.

(** next position after a history *)
Lemma next_run : forall h c, next_pos (c_layout (calo_run c h)) = ends (next_pos (c_layout c)) h.
Proof.
  induction h as [|k r IH]; intros c; [reflexivity|].
  change (calo_run c (k :: r)) with (calo_run (calo_do c k) r). rewrite IH, next_do. destruct k; reflexivity.
Qed.

Lemma calo_layers : forall c0 h, c_layout c0 = [] ->
  let v := getLayerLayout (calo_run c0 h) in
  getNLayers v = Z.of_nat (List.length (layers_of h)) /\
  (forall i k s, nth_error (layers_of h) i = Some k -> nth_error (starts 0 h) i = Some s ->
     let n := Z.of_nat i in getDistance v n = Ok s /\ getThickness v n = Ok (thick k) /\
     match k with
     | CAdd _ c0 c1 a | CPos _ _ c0 c1 a =>
         getCellSize0 v n = Ok c0 /\ getCellSize1 v n = Ok c1 /\ getAbsorberThickness v n = Ok a
     | CExt => False
     end) /\
  (forall n, (n < 0 \/ Z.of_nat (List.length (layers_of h)) <= n)%Z ->
     exists e, getDistance v n = Throw e /\ getThickness v n = Throw e /\ getCellSize0 v n = Throw e /\
       getCellSize1 v n = Throw e /\ getAbsorberThickness v n = Throw e).
Proof.
  intros c0 h E v. assert (EV : v = appended 0 h) by (unfold v, getLayerLayout; rewrite run_layout, E; reflexivity).
  clearbody v. subst v. split; [unfold getNLayers; now rewrite appended_len|]. split.
  - intros i k s Hk Hs n. destruct (appended_nth _ _ _ _ _ Hk Hs) as [l [Hl [Hd HK]]].
    unfold getDistance, getThickness, getCellSize0, getCellSize1, getAbsorberThickness, at_, n. rewrite nthZ_of_nat, Hl.
    cbn. destruct k as [t cc0 cc1 a|d t cc0 cc1 a|]; [subst l|destruct HK as [-> _]|contradiction]; cbn; auto.
  - intros n Hn. exists (EOutOfRange "vector::at"%string).
    unfold getDistance, getThickness, getCellSize0, getCellSize1, getAbsorberThickness, at_.
    destruct (nthZ (appended 0 h) n) eqn:X; [|auto].
    apply nthZ_some in X. rewrite appended_len in X. lia.
Qed.

Lemma calo_touch : forall h i s s' k, nth_error (layers_of h) i = Some k ->
  nth_error (starts 0 h) i = Some s -> nth_error (starts 0 h) (S i) = Some s' ->
  (forall d t c0 c1 a, nth_error (layers_of h) (S i) <> Some (CPos d t c0 c1 a)) -> s' = s + thick k.
Proof.
  intros h. generalize 0. induction h as [|[t c0 c1 a|d t c0 c1 a|] r IH]; intros pos i s s' k Hk Hs Hs' NP.
  - destruct i; discriminate.
  - destruct i.
    + cbn in *. inversion Hk; inversion Hs; subst. cbn. clear IH. revert Hs' NP. generalize (s + t). clear.
      induction r as [|[t c0 c1 a|d t c0 c1 a|] r IH]; intros p Hs' NP; cbn in *.
      * discriminate.
      * congruence.
      * exfalso. eapply NP. reflexivity.
      * now apply IH.
    + cbn in *. eapply IH; eauto.
  - destruct i.
    + cbn in *. inversion Hk; inversion Hs; subst. cbn. clear IH. revert Hs' NP. generalize (s + t). clear.
      induction r as [|[t c0 c1 a|d t c0 c1 a|] r IH]; intros p Hs' NP; cbn in *.
      * discriminate.
      * congruence.
      * exfalso. eapply NP. reflexivity.
      * now apply IH.
    + cbn in *. eapply IH; eauto.
  - cbn in *. eapply IH; eauto.
Qed.

Lemma starts_sum : forall h pos i s, (forall k, In k h -> added k) ->
  nth_error (starts pos h) i = Some s -> s = pos + total (firstn i (layers_of h)).
Proof.
  induction h as [|[t c0 c1 a|d t c0 c1 a|] r IH]; intros pos i s HA Hs.
  - destruct i; discriminate.
  - destruct i; cbn in *; [inversion Hs; lra|]. rewrite (IH _ _ _ (fun k H => HA k (or_intror H)) Hs). unfold layers_of. lra.
  - exfalso. apply (HA (CPos d t c0 c1 a)). now left.
  - cbn in *. apply (IH _ _ _ (fun k H => HA k (or_intror H)) Hs).
Qed.

Lemma calo_sum : forall h i s, (forall k, In k h -> added k) ->
  nth_error (starts 0 h) i = Some s -> s = total (firstn i (layers_of h)).
Proof. intros. rewrite (starts_sum h 0 i s) by auto. lra. Qed.

Lemma ends_total : forall h pos, (forall k, In k h -> added k) -> ends pos h = pos + total (layers_of h).
Proof.
  induction h as [|[t c0 c1 a|d t c0 c1 a|] r IH]; intros pos HA; cbn; [lra| | |].
  - rewrite IH by (intros; apply HA; now right). unfold layers_of. lra.
  - exfalso. apply (HA (CPos d t c0 c1 a)). now left.
  - rewrite IH by (intros; apply HA; now right). unfold layers_of. lra.
Qed.

Lemma calo_barrel : forall rMin zMax sym phi0 h,
  let c := calo_run (new_barrel rMin zMax sym phi0) h in
  getLayoutType c = BARREL /\ getSymmetryOrder c = sym /\ getPhi0 c = phi0 /\
  exists c', getExtent c = SOk c' [rMin; match layers_of h with [] => rMin | _ => ends 0 h end; 0; zMax].
Proof.
  intros. destruct (run_fixed h (new_barrel rMin zMax sym phi0)) as [T [S P]]. fold c in T, S, P. split; [exact T|]. split; [exact S|]. split; [exact P|].
  destruct (ext_ok c) as [c' [v [E [_ [_ [_ [_ [H0 H1]]]]]]]]. exists c'. rewrite E. f_equal.
  destruct (run_extent h (new_barrel rMin zMax sym phi0) rMin rMin 0 zMax eq_refl) as [b [z [X [Y Z]]]]. cbn in Y. subst z. fold c in X, Z.
  assert (EL := run_layout h (new_barrel rMin zMax sym phi0)). fold c in EL. cbn in EL. replace (next_pos []) with 0 in EL by reflexivity.
  destruct (layers_of h) eqn:L.
  - assert (EN : c_layout c = []). { rewrite EL. apply length_zero_iff_nil. rewrite appended_len, L. reflexivity. }
    destruct (H0 EN) as [_ ->]. destruct (Z EN) as [-> _]. exact X.
  - assert (EN : c_layout c <> []). { rewrite EL. intros N. apply length_zero_iff_nil in N. rewrite appended_len, L in N. discriminate. }
    destruct (H1 EN) as [-> ->]. rewrite T. cbn [c_type new_barrel]. rewrite X, set_nth1. unfold c at 1. now rewrite next_run.
Qed.
Lemma calo_endcap : forall rMin rMax zMin sym phi0 h,
  let c := calo_run (new_endcap rMin rMax zMin sym phi0) h in
  getLayoutType c = ENDCAP /\ getSymmetryOrder c = sym /\ getPhi0 c = phi0 /\
  exists c', getExtent c = SOk c' [rMin; rMax; zMin; match layers_of h with [] => zMin | _ => ends 0 h end].
Proof.
  intros. destruct (run_fixed h (new_endcap rMin rMax zMin sym phi0)) as [T [S P]]. fold c in T, S, P. split; [exact T|]. split; [exact S|]. split; [exact P|].
  destruct (ext_ok c) as [c' [v [E [_ [_ [_ [_ [H0 H1]]]]]]]]. exists c'. rewrite E. f_equal.
  destruct (run_extent h (new_endcap rMin rMax zMin sym phi0) rMin rMax zMin zMin eq_refl) as [b [z [X [Y Z]]]]. cbn in Y. subst b. fold c in X, Z.
  assert (EL := run_layout h (new_endcap rMin rMax zMin sym phi0)). fold c in EL. cbn in EL. replace (next_pos []) with 0 in EL by reflexivity.
  destruct (layers_of h) eqn:L.
  - assert (EN : c_layout c = []). { rewrite EL. apply length_zero_iff_nil. rewrite appended_len, L. reflexivity. }
    destruct (H0 EN) as [_ ->]. destruct (Z EN) as [_ ->]. exact X.
  - assert (EN : c_layout c <> []). { rewrite EL. intros N. apply length_zero_iff_nil in N. rewrite appended_len, L in N. discriminate. }
    destruct (H1 EN) as [-> ->]. rewrite T. cbn [c_type new_endcap]. rewrite X, set_nth3. unfold c at 1. now rewrite next_run.
Qed.

(** Adding the first layer with addLayer puts it at 0, not at the inner radius: the outer radius is
    then below the inner one for thin calorimeters. *)
Lemma calo_first_at_zero : forall rMin zMax sym phi0 t c0 c1 a, t < rMin ->
  exists c' rMax, getExtent (calo_run (new_barrel rMin zMax sym phi0) [CAdd t c0 c1 a]) = SOk c' [rMin; rMax; 0; zMax] /\ rMax < rMin.
Proof.
  intros rMin zMax sym phi0 t c0 c1 a H. destruct (calo_barrel rMin zMax sym phi0 [CAdd t c0 c1 a]) as [_ [_ [_ [c' E]]]].
  exists c', (0 + t). rewrite E. cbn. split; [reflexivity|lra].
Qed.
