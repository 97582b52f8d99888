(** Proofs about beam telescopes (C67). *)
From Coq Require Import ZArith List String Bool Reals Lia.
From Verif Require Import Base BaseProofs RBase TrkModel TrkSpec.
Import ListNotations.
Open Scope R_scope.

Lemma at_cases : forall {A} (l : list A) i, (0 <= i < Z.of_nat (List.length l))%Z /\ (exists x, nth_error l (Z.to_nat i) = Some x /\ at_ l i = Ok x) \/
  ~ (0 <= i < Z.of_nat (List.length l))%Z /\ at_ l i = Throw (EOutOfRange "vector::at").
Proof.
  intros A l i. unfold at_, nthZ. destruct (Z.ltb_spec i 0); [right; split; [lia | reflexivity]|].
  destruct (nth_error l (Z.to_nat i)) as [x|] eqn:E.
  - left. assert (Z.to_nat i < List.length l)%nat by (apply nth_error_Some; congruence). split; [lia|]. exists x. auto.
  - right. apply nth_error_None in E. split; [lia | reflexivity].
Qed.

(** a telescope shows a table *)
Definition shows (s : siplanes) (t : table) : Prop :=
  List.length (si_l s) = List.length t /\ List.length (si_s s) = List.length t /\
  forall i l e r, nth_error (si_l s) i = Some l -> nth_error (si_s s) i = Some e -> nth_error t i = Some r -> forall c, r c = entry c l e.

Lemma shows_read : forall s t c i, shows s t ->
  read c s i = (if ((0 <=? i) && (i <? Z.of_nat (List.length t)))%Z%bool then
                  match nth_error t (Z.to_nat i) with Some r => Ok (r c) | None => UB end
                else Throw (EOutOfRange "vector::at")).
Proof.
  intros s t c i [L1 [L2 R]].
  destruct (at_cases (si_l s) i) as [[I1 [l [N1 A1]]]|[I1 A1]]; destruct (at_cases (si_s s) i) as [[I2 [e [N2 A2]]]|[I2 A2]]; try lia.
  - rewrite L1 in I1. destruct (Z.leb_spec 0 i); [|lia]. destruct (Z.ltb_spec i (Z.of_nat (List.length t))); [|lia]. cbn [andb].
    destruct (nth_error t (Z.to_nat i)) as [r|] eqn:N3; [|apply nth_error_None in N3; lia].
    rewrite (R _ l e r N1 N2 N3). unfold read, si_getID, si_getLayer, si_getSensitiveZ, si_getSensitive. rewrite A1, A2. destruct c; reflexivity.
  - rewrite L1 in I1. replace ((0 <=? i) && (i <? Z.of_nat (List.length t)))%Z%bool with false.
    + unfold read, si_getID, si_getLayer, si_getSensitiveZ, si_getSensitive. rewrite A1, A2. destruct c; reflexivity.
    + symmetry. apply andb_false_iff. rewrite Z.leb_gt, Z.ltb_ge. lia.
Qed.

Lemma upd_cases : forall {A} (g : A -> A) l i, (exists x, nth_error l (Z.to_nat i) = Some x /\ (0 <= i < Z.of_nat (List.length l))%Z /\
    exists l', upd g l i = Ok l' /\ List.length l' = List.length l /\
    forall j, nth_error l' j = if Nat.eqb j (Z.to_nat i) then Some (g x) else nth_error l j) \/
  (~ (0 <= i < Z.of_nat (List.length l))%Z /\ upd g l i = Throw (EOutOfRange "vector::at")).
Proof.
  intros A g l i. unfold upd. destruct (at_cases l i) as [[I [x [N E]]]|[I E]]; rewrite E; cbn [rbind]; [left | right; auto].
  exists x. split; [exact N|]. split; [exact I|]. eexists. split; [reflexivity|].
  assert (K : (Z.to_nat i < List.length l)%nat) by lia. revert N K. generalize (Z.to_nat i) as k. clear.
  intros k N K. assert (F : List.length (firstn k l) = k) by (apply firstn_length_le; lia). split.
  - rewrite app_length, F. cbn [List.length]. rewrite skipn_length. lia.
  - intros j. destruct (Nat.eqb_spec j k) as [->|D].
    + rewrite nth_error_app2 by lia. rewrite F, Nat.sub_diag. reflexivity.
    + destruct (Nat.lt_ge_cases j k).
      * rewrite nth_error_app1 by lia. rewrite <- (firstn_skipn k l) at 2. rewrite nth_error_app1 by lia. reflexivity.
      * rewrite nth_error_app2 by lia. rewrite F. destruct (j - k)%nat as [|m] eqn:M; [lia|]. cbn [nth_error].
        assert (Q : forall (q : list A) a b, nth_error (skipn a q) b = nth_error q (a + b)).
        { induction q as [|y q IH]; intros [|a] b; cbn; try reflexivity; [destruct b; reflexivity | apply IH]. }
        rewrite Q. f_equal. lia.
Qed.

Lemma put_at_length : forall t i c v, List.length (put_at t i c v) = List.length t.
Proof. induction t as [|r t IH]; intros [|i] c v; cbn; auto. Qed.
Lemma put_at_nth : forall t i c v j, nth_error (put_at t i c v) j =
  if Nat.eqb j i then option_map (put c v) (nth_error t j) else nth_error t j.
Proof.
  induction t as [|r t IH]; intros [|i] c v [|j]; cbn; try reflexivity.
  - destruct (Nat.eqb j i); reflexivity.
  - apply IH.
Qed.

Lemma pget_pset : forall f g v p, pget f (pset g v p) = if column_eq_dec (Layer f) (Layer g) then v else pget f p.
Proof. intros f g v []. destruct f, g; reflexivity. Qed.
Lemma entry_ID : forall c v l e, entry c (pset_ID v l) e = put Layer_ID (inl v) (fun d => entry d l e) c.
Proof. intros c v [] e. unfold put. destruct (column_eq_dec c Layer_ID) as [->|N]; [reflexivity|]. destruct c as [|f|f|f]; try congruence; try destruct f; reflexivity. Qed.
Lemma entry_Layer : forall c f v l e, entry c (pset f v l) e = put (Layer f) (inr v) (fun d => entry d l e) c.
Proof.
  intros c f v l e. unfold put. destruct c as [|g|g|g]; try (destruct (column_eq_dec _ _) as [X|X]; [discriminate|]; destruct l, f; reflexivity).
  cbn [entry]. rewrite pget_pset. destruct (column_eq_dec (Layer g) (Layer f)); reflexivity.
Qed.
Lemma entry_int : forall c f v l e, entry c l (ssetZ f v e) = put (Sensitive_int f) (inl v) (fun d => entry d l e) c.
Proof.
  intros c f v l [[] ]. unfold put. destruct (column_eq_dec c (Sensitive_int f)) as [->|X]; [destruct f; reflexivity|].
  destruct c as [|g|g|g]; destruct f; try reflexivity; destruct g; try reflexivity; congruence.
Qed.
Lemma entry_Sens : forall c f v l e, entry c l (sset f v e) = put (Sensitive f) (inr v) (fun d => entry d l e) c.
Proof.
  intros c f v l [q ]. unfold put. destruct (column_eq_dec c (Sensitive f)) as [->|X].
  - destruct f as [h| | | | | | | | |]; try reflexivity. cbn. rewrite pget_pset. destruct (column_eq_dec (Layer h) (Layer h)); [reflexivity | congruence].
  - destruct c as [|g|g|g]; try (destruct f; reflexivity).
    + destruct f as [h| | | | | | | | |], g; try reflexivity. destruct q, h; reflexivity.
    + destruct f as [h| | | | | | | | |], g as [k| | | | | | | | |]; try reflexivity; try congruence. cbn. rewrite pget_pset.
      destruct (column_eq_dec (Layer k) (Layer h)) as [Y|Y]; [congruence | reflexivity].
Qed.

Lemma write_shows : forall s t c i v r, shows s t -> write c s i v = Some r ->
  (0 <= i < Z.of_nat (List.length t))%Z /\ (exists s', r = Ok s' /\ shows s' (put_at t (Z.to_nat i) c v) /\ rest s' = rest s) \/
  ~ (0 <= i < Z.of_nat (List.length t))%Z /\ r = Throw (EOutOfRange "vector::at").
Proof.
  intros s t c i v r [L1 [L2 R]] W. rewrite <- L1 at 1.
  assert (KL : forall g, (forall l e d, entry d (g l) e = put c v (fun d => entry d l e) d) -> r = rmap (with_l s) (upd g (si_l s) i) ->
    (0 <= i < Z.of_nat (List.length (si_l s)))%Z /\ (exists s', r = Ok s' /\ shows s' (put_at t (Z.to_nat i) c v) /\ rest s' = rest s) \/
    ~ (0 <= i < Z.of_nat (List.length t))%Z /\ r = Throw (EOutOfRange "vector::at")).
  { intros g E ->. destruct (upd_cases g (si_l s) i) as [[x [N [I [l' [U [LL Q]]]]]]|[I U]]; rewrite U; cbn [rmap]; [left | right; split; [lia | reflexivity]].
    split; [exact I|]. eexists. split; [reflexivity|]. split; [|reflexivity]. unfold shows, with_l. cbn [si_l si_s]. rewrite put_at_length.
    split; [lia|]. split; [lia|]. intros j l e q N1 N2 N3 d. rewrite Q in N1. rewrite put_at_nth in N3. destruct (Nat.eqb_spec j (Z.to_nat i)) as [->|D].
    - injection N1 as <-. destruct (nth_error t (Z.to_nat i)) as [q0|] eqn:N4; [|discriminate]. injection N3 as <-.
      rewrite E. unfold put. destruct (column_eq_dec d c); [reflexivity | apply (R _ x e q0 N N2 N4)].
    - apply (R j l e q); assumption. }
  assert (KS : forall g, (forall l e d, entry d l (g e) = put c v (fun d => entry d l e) d) -> r = rmap (with_s s) (upd g (si_s s) i) ->
    (0 <= i < Z.of_nat (List.length (si_l s)))%Z /\ (exists s', r = Ok s' /\ shows s' (put_at t (Z.to_nat i) c v) /\ rest s' = rest s) \/
    ~ (0 <= i < Z.of_nat (List.length t))%Z /\ r = Throw (EOutOfRange "vector::at")).
  { intros g E ->. destruct (upd_cases g (si_s s) i) as [[x [N [I [l' [U [LL Q]]]]]]|[I U]]; rewrite U; cbn [rmap]; [left | right; split; [lia | reflexivity]].
    split; [lia|]. eexists. split; [reflexivity|]. split; [|reflexivity]. unfold shows, with_s. cbn [si_l si_s]. rewrite put_at_length.
    split; [lia|]. split; [lia|]. intros j l e q N1 N2 N3 d. rewrite Q in N2. rewrite put_at_nth in N3. destruct (Nat.eqb_spec j (Z.to_nat i)) as [->|D].
    - injection N2 as <-. destruct (nth_error t (Z.to_nat i)) as [q0|] eqn:N4; [|discriminate]. injection N3 as <-.
      rewrite E. unfold put. destruct (column_eq_dec d c); [reflexivity | apply (R _ l x q0 N1 N N4)].
    - apply (R j l e q); assumption. }
  destruct c as [|f|f|f], v as [z|x]; try discriminate W; injection W as <-.
  - apply (KL (pset_ID z)); [|reflexivity]. intros. apply entry_ID.
  - apply (KL (pset f x)); [|reflexivity]. intros. apply entry_Layer.
  - apply (KS (ssetZ f z)); [|reflexivity]. intros. apply entry_int.
  - apply (KS (sset f x)); [|reflexivity]. intros. apply entry_Sens.
Qed.

Lemma write_fits : forall c s i v, write c s i v = None <-> fits c v = false.
Proof. intros [|f|f|f] s i [z|x]; cbn; split; congruence. Qed.
Lemma put_at_far : forall t i c v, (List.length t <= i)%nat -> put_at t i c v = t.
Proof. induction t as [|r t IH]; intros [|i] c v L; cbn in *; try reflexivity; [lia|]. rewrite IH by lia. reflexivity. Qed.

Lemma step_shows : forall s t o, shows s t -> shows (tele_step s o) (table_step t o).
Proof.
  intros s t [l e|c i v|l e] H; cbn [tele_step table_step].
  - destruct H as [L1 [L2 R]]. unfold si_addLayer, shows. cbn [si_l si_s]. rewrite !app_length. cbn [List.length]. split; [lia|]. split; [lia|].
    intros i l1 e1 r N1 N2 N3 c. destruct (Nat.lt_ge_cases i (List.length t)).
    + rewrite nth_error_app1 in N1, N2, N3 by lia. apply (R i); assumption.
    + rewrite nth_error_app2 in N1, N2, N3 by lia. rewrite L1 in N1. rewrite L2 in N2. destruct (i - List.length t)%nat as [|k]; [|destruct k; discriminate].
      injection N1 as <-. injection N2 as <-. injection N3 as <-. reflexivity.
  - destruct (write c s i v) as [r|] eqn:W.
    + assert (F : fits c v = true) by (destruct (fits c v) eqn:F; [reflexivity|]; apply write_fits with (s := s) (i := i) in F; congruence).
      rewrite F. cbn [andb]. destruct (write_shows s t c i v r H W) as [[I [s' [-> [S _]]]]|[I ->]].
      * destruct (Z.leb_spec 0 i); [exact S | lia].
      * destruct (Z.leb_spec 0 i); [|exact H]. rewrite put_at_far by lia. exact H.
    + apply write_fits in W. rewrite W. exact H.
  - exact H.
Qed.

Lemma run_shows : forall os s t, shows s t -> shows (tele_run s os) (fold_left table_step os t).
Proof. induction os as [|o os IH]; intros s t H; [exact H|]. apply (IH (tele_step s o) (table_step t o)). apply step_shows. exact H. Qed.
Lemma new_shows : forall id type num, shows (new_siplanes id type num) [].
Proof. intros. split; [reflexivity|]. split; [reflexivity|]. intros [|i] l e r X; discriminate X. Qed.

(** C67 *)
Lemma telescope_table : forall id type num os c i, let s := tele_run (new_siplanes id type num) os in let t := fold_left table_step os [] in
  si_getNLayers s = Z.of_nat (List.length t) /\
  read c s i = match (if (0 <=? i)%Z then nth_error t (Z.to_nat i) else None) with Some row => Ok (row c) | None => Throw (EOutOfRange "vector::at") end.
Proof.
  intros id type num os c i s t. pose proof (run_shows os _ _ (new_shows id type num)) as H. fold s t in H. split.
  - unfold si_getNLayers. destruct H as [-> _]. reflexivity.
  - rewrite (shows_read s t c i H). destruct (Z.leb_spec 0 i); cbn [andb]; [|reflexivity].
    destruct (Z.ltb_spec i (Z.of_nat (List.length t))).
    + destruct (nth_error t (Z.to_nat i)) eqn:N; [reflexivity|]. apply nth_error_None in N. lia.
    + destruct (nth_error t (Z.to_nat i)) eqn:N; [|reflexivity]. assert (Z.to_nat i < List.length t)%nat by (apply nth_error_Some; congruence). lia.
Qed.
Lemma telescope_refused : forall id type num os c i v, let s := tele_run (new_siplanes id type num) os in
  fits c v = true -> exists r, write c s i v = Some r /\
   (0 <= i < si_getNLayers s -> exists s', r = Ok s' /\ rest s' = rest s)%Z /\ (~ (0 <= i < si_getNLayers s)%Z -> r = Throw (EOutOfRange "vector::at")).
Proof.
  intros id type num os c i v s F. destruct (write c s i v) as [r|] eqn:W; [|apply write_fits in W; congruence]. exists r. split; [reflexivity|].
  pose proof (run_shows os _ _ (new_shows id type num)) as H. fold s in H. unfold si_getNLayers. pose proof H as [L _]. rewrite L.
  destruct (write_shows _ _ c i v r H W) as [[I [s' [E [_ Q]]]]|[I E]]; (split; [intros J | intros J]); try (exfalso; tauto); eauto.
Qed.

(** the two overloads of addLayer without resolutions *)
Lemma old_overloads : forall s lID lX lY lZ lSX lSY lT lRad sID sX sY sZ sSX sSY sT nX nY pX pY res r1 r2 r3 r4 sRad,
  let a := si_addLayer_old s lID lX lY lZ lSX lSY lT lRad sID sX sY sZ sSX sSY sT nX nY pX pY res r1 r2 r3 r4 sRad in
  let b := layout_addLayer_old s lID lX lY lZ lSX lSY lT lRad sID sX sY sZ sSX sSY sT nX nY pX pY res r1 r2 r3 r4 sRad in
  List.length (si_l s) = List.length (si_s s) ->
  forall f, read (Sensitive f) a (si_getNLayers s) = (if column_eq_dec (Sensitive f) (Sensitive SResX) then Ok (inr res)
            else if column_eq_dec (Sensitive f) (Sensitive SResY) then Ok (inr res) else read (Sensitive f) b (si_getNLayers s)) /\
  read (Sensitive SResX) b (si_getNLayers s) = Ok (inr 0) /\ read (Sensitive SResY) b (si_getNLayers s) = Ok (inr 0).
Proof.
  intros s lID lX lY lZ lSX lSY lT lRad sID sX sY sZ sSX sSY sT nX nY pX pY res r1 r2 r3 r4 sRad a b L f.
  assert (LA : forall e, at_ (si_s s ++ [e]) (si_getNLayers s) = Ok e).
  { intros e. unfold si_getNLayers, at_, nthZ. destruct (Z.ltb_spec (Z.of_nat (List.length (si_l s))) 0); [lia|]. rewrite Nat2Z.id, L.
    rewrite nth_error_app2 by lia. rewrite Nat.sub_diag. reflexivity. }
  unfold read, si_getSensitive, a, b, si_addLayer_old, layout_addLayer_old, si_addLayer. cbn [si_s]. rewrite !LA. cbn [rmap].
  split; [|auto]. destruct f as [g| | | | | | | | |]; reflexivity.
Qed.

(** ** TrackerPlanes *)
Lemma tp_adds_layers : forall ls t, tp_layers (tp_adds t ls) = tp_layers t ++ ls.
Proof. induction ls as [|l ls IH]; intros t; cbn; [rewrite app_nil_r; reflexivity|]. rewrite IH. cbn. rewrite <- app_assoc. reflexivity. Qed.
Lemma planes_by_index : forall id type num ls i, let t := tp_adds (new_tplanes id type num) ls in (0 <= i)%Z ->
  tp_getNLayers t = Z.of_nat (List.length ls) /\ tp_getLayer t i = nth_error ls (Z.to_nat i).
Proof. intros id type num ls i t I. unfold tp_getNLayers, tp_getLayer, t. rewrite tp_adds_layers. split; reflexivity. Qed.
Lemma planes_by_ID : forall id type num ls k, let t := tp_adds (new_tplanes id type num) ls in
  (forall l, tp_getLayerByID t k = Some l <-> exists a b, ls = a ++ l :: b /\ tl_ID l = k /\ forall x, In x a -> tl_ID x <> k) /\
  (tp_getLayerByID t k = None <-> forall l, In l ls -> tl_ID l <> k).
Proof.
  intros id type num ls k t. unfold tp_getLayerByID, t. rewrite tp_adds_layers. cbn [tp_layers new_tplanes app]. clear t.
  assert (A : forall l, find (fun l => (tl_ID l =? k)%Z) ls = Some l -> exists a b, ls = a ++ l :: b /\ tl_ID l = k /\ forall x, In x a -> tl_ID x <> k).
  { induction ls as [|y ls IH]; intros l F; cbn in F; [discriminate|]. destruct (Z.eqb_spec (tl_ID y) k).
    - injection F as <-. exists [], ls. repeat split; [assumption|]. intros x [].
    - destruct (IH l F) as [a [b [E [K N]]]]. exists (y :: a), b. split; [rewrite E; reflexivity|]. split; [exact K|]. intros x [<-|X]; [assumption | apply N; exact X]. }
  assert (B : find (fun l => (tl_ID l =? k)%Z) ls = None <-> forall l, In l ls -> tl_ID l <> k).
  { split.
    - intros F l I E. apply (find_none _ _ F) in I. apply Z.eqb_neq in I. contradiction.
    - intros N. destruct (find _ ls) as [l|] eqn:F; [|reflexivity]. exfalso. apply find_some in F. destruct F as [I E]. apply Z.eqb_eq in E. apply (N l I E). }
  split; [|exact B]. intros l. split; [apply A|]. intros [a [b [-> [K N]]]]. clear A B. induction a as [|y a IH]; cbn.
  - rewrite K, Z.eqb_refl. reflexivity.
  - destruct (Z.eqb_spec (tl_ID y) k) as [E|E]; [exfalso; apply (N y); [left; reflexivity | exact E]|]. apply IH. intros x X. apply N. right. exact X.
Qed.
Lemma layout_ID_lost : forall t v, tp_getID (tp_setID t v) = 0%Z.
Proof. reflexivity. Qed.
