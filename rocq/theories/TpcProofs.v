(** Proofs about the TPC description: module bookkeeping, extent, nearest module and pad, cathode. *)
From Coq Require Import ZArith List String Bool Reals Lra Lia.
From Verif Require Import Base RBase TpcModuleModel TpcModel TpcSpec TpcModuleProofs.
Import ListNotations.
Open Scope R_scope.

(** ** bookkeeping *)
Definition idof (h : heap) (a : Z) : Z := getModuleID (h a).
Definition index_map (h : heap) (mods : list Z) (mp : list (Z * Z)) : Prop :=
  forall id, match id_find mp id with
             | Some i => exists a, nthZ mods i = Some a /\ idof h a = id
             | None => forall a, In a mods -> idof h a <> id
             end.
Record book (w : world) : Prop := mkBook {
  bk_map : index_map (w_heap w) (t_mods (w_tpc w)) (t_map (w_tpc w));
  bk_type : forall a, In a (t_mods (w_tpc w)) -> getTPCCoordinateType (w_heap w a) = t_type (w_tpc w);
  bk_dup : NoDup (map (idof (w_heap w)) (t_mods (w_tpc w))) }.

Lemma call_module_id : forall m c m', state_of (call_module m c) = Some m' ->
  getModuleID m' = getModuleID m /\ getTPCCoordinateType m' = getTPCCoordinateType m.
Proof.
  assert (CV : forall x m', state_of (convert x) = Some m' -> m_id m' = m_id x /\ m_type m' = m_type x).
  { intros x m' H. apply convert_core in H. destruct H as [H _]. unfold core in H.
    injection H as E1 E2 E3 E4 E5 E6 E7 E8 E9 E10 E11 E12 E13 E14. auto. }
  intros m c m' H. unfold getModuleID, getTPCCoordinateType. destruct c as [a b|z|a|b|f]; unfold call_module in H.
  - unfold setOffset in H. destruct (m_type m =? POLAR)%Z eqn:E1; [|destruct (m_type m =? CARTESIAN)%Z eqn:E2].
    + apply CV in H. exact H.
    + apply CV in H. exact H.
    + cbn in H. injection H as <-. auto.
  - cbn in H. injection H as <-. auto.
  - apply CV in H. exact H.
  - apply CV in H. exact H.
  - cbn in H. injection H as <-. auto.
Qed.

Lemma book_heap : forall w h, book w ->
  (forall a, getModuleID (h a) = getModuleID (w_heap w a) /\ getTPCCoordinateType (h a) = getTPCCoordinateType (w_heap w a)) ->
  forall t, t_mods t = t_mods (w_tpc w) -> t_map t = t_map (w_tpc w) -> t_type t = t_type (w_tpc w) -> book (mkW h t).
Proof.
  intros w h [B1 B2 B3] H t T1 T2 T3.
  assert (I : forall a, idof h a = idof (w_heap w) a) by (intros a; exact (proj1 (H a))).
  constructor; cbn [w_heap w_tpc]; rewrite ?T1, ?T2, ?T3.
  - intros id. specialize (B1 id). destruct (id_find (t_map (w_tpc w)) id).
    + destruct B1 as (a & A & B). exists a. now rewrite I.
    + intros a A. rewrite I. now apply B1.
  - intros a A. rewrite (proj2 (H a)). now apply B2.
  - erewrite map_ext; [exact B3|]. exact I.
Qed.

(** what addModule does, exactly *)
Definition extent_with (t : tpc) (m : module) : ext4 :=
  match t_mods t with [] => getModuleExtent m | _ => grow (t_ext t) (getModuleExtent m) end.

Lemma add_accepted : forall w a, book w -> accepts w a ->
  exists t, addModule (w_heap w) (w_tpc w) (Some a) = SOk t tt /\ t_mods t = t_mods (w_tpc w) ++ [a] /\
    t_type t = t_type (w_tpc w) /\ t_drift t = t_drift (w_tpc w) /\ t_vel t = t_vel (w_tpc w) /\
    t_map t = (getModuleID (w_heap w a), Z.of_nat (List.length (t_mods (w_tpc w)))) :: t_map (w_tpc w) /\
    t_ext t = extent_with (w_tpc w) (w_heap w a) /\
    t_neg t = t_neg (w_tpc w) ++ filter (on_negative (w_heap w)) [a] /\
    t_pos t = t_pos (w_tpc w) ++ filter (on_positive (w_heap w)) [a] /\
    t_cathode t = match getZPosition (w_heap w a) with
                  | Some _ => cathode (w_heap w) (t_pos t) (t_neg t) (t_drift (w_tpc w)) (t_cathode (w_tpc w))
                  | None => t_cathode (w_tpc w) end.
Proof.
  intros [h t] a B [A1 A2]. cbn [w_heap w_tpc] in *. unfold addModule.
  unfold getCoordinateType in A1. rewrite A1, Z.eqb_refl. cbn [negb].
  pose proof (bk_map _ B (getModuleID (h a))) as F. cbn [w_heap w_tpc] in F.
  destruct (id_find (t_map t) (getModuleID (h a))) eqn:E.
  - exfalso. destruct F as (b & Fb & Fi). unfold nthZ in Fb. destruct (z <? 0)%Z; [discriminate|].
    apply nth_error_In in Fb. apply (A2 b Fb). exact Fi.
  - eexists. split; [reflexivity|]. cbn [t_mods t_type t_drift t_vel t_map t_ext t_neg t_pos t_cathode].
    unfold on_negative, on_positive, filter, extent_with.
    destruct (getZPosition (h a)) as [z|]; [|intuition].
    rewrite Rltb_Rleb. destruct (Rleb z 0); cbn [negb]; rewrite ?app_nil_r; intuition.
Qed.
Lemma add_refused : forall w a, book w -> ~ accepts w a ->
  exists e, addModule (w_heap w) (w_tpc w) (Some a) = SThrow (w_tpc w) (EGear e).
Proof.
  intros [h t] a B N. cbn [w_heap w_tpc] in *. unfold addModule.
  destruct (Z.eqb_spec (getTPCCoordinateType (h a)) (t_type t)) as [E|E]; cbn [negb]; [|eexists; reflexivity].
  pose proof (bk_map _ B (getModuleID (h a))) as F. cbn [w_heap w_tpc] in F.
  destruct (id_find (t_map t) (getModuleID (h a))) eqn:E2; [eexists; reflexivity|].
  exfalso. apply N. split; [exact E|]. intros b Hb. exact (F b Hb).
Qed.
Lemma add_null : forall h t, exists e, addModule h t None = SThrow t (EGear e).
Proof. intros. eexists. reflexivity. Qed.

Lemma accepts_dec : forall w a, accepts w a \/ ~ accepts w a.
Proof.
  intros w a. destruct (Z.eq_dec (getTPCCoordinateType (w_heap w a)) (getCoordinateType (w_tpc w))) as [E|E].
  - destruct (in_dec Z.eq_dec (getModuleID (w_heap w a)) (map (idof (w_heap w)) (getModules (w_tpc w)))) as [I|I].
    + right. intros [_ X]. apply in_map_iff in I. destruct I as (b & Hb & Ib). exact (X b Ib Hb).
    + left. split; [exact E|]. intros b Hb X. apply I. apply in_map_iff. exists b. auto.
  - right. intros [X _]. contradiction.
Qed.

Lemma nthZ_app1 : forall A (l : list A) x i a, nthZ l i = Some a -> nthZ (l ++ [x]) i = Some a.
Proof.
  intros A l x i a H. unfold nthZ in *. destruct (i <? 0)%Z; [discriminate|].
  rewrite nth_error_app1; [exact H|]. apply nth_error_Some. congruence.
Qed.
Lemma nthZ_app2 : forall A (l : list A) x, nthZ (l ++ [x]) (Z.of_nat (List.length l)) = Some x.
Proof. intros. rewrite nthZ_of_nat, nth_error_app2, Nat.sub_diag by lia. reflexivity. Qed.

Lemma nodup_last : forall (l : list Z) x, NoDup l -> ~ In x l -> NoDup (l ++ [x]).
Proof.
  induction l as [|a l IH]; intros x H N; cbn.
  - constructor; [intros []|constructor].
  - inversion H as [|? ? H1 H2]; subst. constructor.
    + rewrite in_app_iff. intros [X|[X|[]]]; [contradiction|]. subst. apply N. left. reflexivity.
    + apply IH; [exact H2|]. intros X. apply N. right. exact X.
Qed.
Lemma book_add : forall w a t, book w -> accepts w a -> addModule (w_heap w) (w_tpc w) (Some a) = SOk t tt ->
  book (mkW (w_heap w) t).
Proof.
  intros w a t B A H. destruct (add_accepted w a B A) as (t' & E & T1 & T2 & _ & _ & T3 & _). rewrite H in E.
  injection E as <-. destruct B as [B1 B2 B3]. destruct A as [A1 A2]. unfold getCoordinateType, getModules in *.
  constructor; cbn [w_heap w_tpc]; rewrite ?T1, ?T2, ?T3.
  - intros id. specialize (B1 id). cbn [id_find]. destruct (Z.eqb_spec (getModuleID (w_heap w a)) id) as [X|X].
    + exists a. split; [apply nthZ_app2|exact X].
    + destruct (id_find (t_map (w_tpc w)) id).
      * destruct B1 as (b & Hb & Ib). exists b. split; [now apply nthZ_app1|exact Ib].
      * intros b Hb. apply in_app_iff in Hb. destruct Hb as [Hb|[<-|[]]]; [now apply B1|exact X].
  - intros b Hb. apply in_app_iff in Hb. destruct Hb as [Hb|[<-|[]]]; [now apply B2|exact A1].
  - rewrite map_app. cbn [map]. apply nodup_last;
      [exact B3|]. intros X. apply in_map_iff in X. destruct X as (b & Hb & Ib). exact (A2 b Ib Hb).
Qed.

Lemma heap_set_same : forall h a m, heap_set h a m a = m.
Proof. intros. unfold heap_set. now rewrite Z.eqb_refl. Qed.
Lemma heap_set_other : forall h a m b, b <> a -> heap_set h a m b = h b.
Proof. intros. unfold heap_set. destruct (Z.eqb_spec b a); [contradiction|reflexivity]. Qed.

Lemma book_new : forall h drift type, book (mkW h (new_tpc drift type)).
Proof.
  intros. constructor; cbn; [intros id a []|intros a []|constructor].
Qed.
Lemma book_step : forall w c w', book w -> after (call_tpc w c) = Some w' -> book w'.
Proof.
  intros w c w' B H. destruct c as [p|d|v|f|a p|a c]; unfold call_tpc in H.
  - destruct p as [a|].
    + destruct (accepts_dec w a) as [A|A].
      * destruct (add_accepted w a B A) as (t & E & _). rewrite E in H. cbn in H. injection H as <-.
        eapply book_add; eauto.
      * destruct (add_refused w a B A) as (e & E). rewrite E in H. cbn in H. injection H as <-. now destruct w.
    + cbn in H. injection H as <-. now destruct w.
  - cbn in H. injection H as <-. apply (book_heap w); auto.
  - cbn in H. injection H as <-. apply (book_heap w); auto.
  - unfold setReadoutFrequency in H. destruct (t_mods (w_tpc w)) as [|a [|b l]] eqn:E.
    + cbn in H. now injection H as <-.
    + cbn in H. injection H as <-. apply (book_heap w); auto. intros b. unfold heap_set.
      destruct (Z.eqb_spec b a); [subst b|]; auto.
    + cbn in H. now injection H as <-.
  - unfold setPadLayout in H. destruct (t_mods (w_tpc w)) as [|b l] eqn:E.
    + destruct p as [p|]; [|discriminate]. cbv zeta in H.
      set (h := heap_set (w_heap w) a (new_module 0 p (t_type (w_tpc w)) 0)) in *.
      assert (B' : book (mkW h (w_tpc w))).
      { destruct B as [B1 B2 B3]. rewrite E in *. constructor; cbn [w_heap w_tpc]; rewrite ?E.
        - intros id. specialize (B1 id). destruct (id_find (t_map (w_tpc w)) id); [|intros x []].
          destruct B1 as (x & X & _). apply nthZ_some in X. cbn in X. lia.
        - intros x [].
        - constructor. }
      assert (A : accepts (mkW h (w_tpc w)) a).
      { split; cbn [w_heap w_tpc].
        - unfold h. rewrite heap_set_same. reflexivity.
        - unfold getModules. rewrite E. intros x []. }
      destruct (add_accepted _ _ B' A) as (t & Et & _). cbn [w_heap w_tpc] in Et. rewrite Et in H. cbn in H.
      injection H as <-. apply (book_add (mkW h (w_tpc w)) a t B' A Et).
    + cbn in H. now injection H as <-.
  - assert (X : exists m', state_of (call_module (w_heap w a) c) = Some m' /\ w' = mkW (heap_set (w_heap w) a m') (w_tpc w)).
    { destruct (call_module (w_heap w a) c) as [m' []|m' e|]; cbn in H |- *; [| |discriminate]; injection H as <-; eauto. }
    destruct X as (m' & X & ->). apply (book_heap w); auto. intros b. unfold heap_set.
    destruct (Z.eqb_spec b a) as [->|]; [|auto]. exact (call_module_id _ _ _ X).
Qed.
Lemma book_run : forall h w w', book w -> tpc_run w h = Some w' -> book w'.
Proof.
  induction h as [|c h IH]; intros w w' B H; cbn in H.
  - now injection H as <-.
  - destruct (after (call_tpc w c)) as [w1|] eqn:E; [|discriminate]. eapply IH; [|exact H]. eapply book_step; eauto.
Qed.
Lemma reached_book : forall w, tpc_reached w -> book w.
Proof. intros w (d & t & h & calls & H). eapply book_run; [|exact H]. apply book_new. Qed.

(** ** user level: module bookkeeping *)
Lemma module_lookup : forall w, tpc_reached w ->
  NoDup (map (fun a => getModuleID (w_heap w a)) (getModules (w_tpc w))) /\
  getNModules (w_tpc w) = Z.of_nat (List.length (getModules (w_tpc w))) /\
  (forall a, In a (getModules (w_tpc w)) -> getTPCCoordinateType (w_heap w a) = getCoordinateType (w_tpc w)) /\
  forall id, (exists a, In a (getModules (w_tpc w)) /\ getModuleID (w_heap w a) = id /\ getModule (w_tpc w) id = Ok a) \/
             ((forall a, In a (getModules (w_tpc w)) -> getModuleID (w_heap w a) <> id) /\
              exists e, getModule (w_tpc w) id = Throw (EGear e)).
Proof.
  intros w H. apply reached_book in H. destruct H as [B1 B2 B3]. split; [exact B3|split; [reflexivity|split; [exact B2|]]].
  intros id. specialize (B1 id). unfold getModule, getModules in *. destruct (id_find (t_map (w_tpc w)) id).
  - left. destruct B1 as (a & A & I). exists a. split; [|split; [exact I|]].
    + unfold nthZ in A. destruct (z <? 0)%Z; [discriminate|]. eapply nth_error_In; eauto.
    + unfold sub. now rewrite A.
  - right. split; [exact B1|eexists; reflexivity].
Qed.

Lemma module_add : forall w a, tpc_reached w ->
  (accepts w a -> exists w', call_tpc w (TAdd (Some a)) = SOk w' tt /\
     getModules (w_tpc w') = getModules (w_tpc w) ++ [a] /\ w_heap w' = w_heap w /\
     getMaxDriftLength (w_tpc w') = getMaxDriftLength (w_tpc w) /\ getDriftVelocity (w_tpc w') = getDriftVelocity (w_tpc w) /\
     getCoordinateType (w_tpc w') = getCoordinateType (w_tpc w)) /\
  (~ accepts w a -> exists e, call_tpc w (TAdd (Some a)) = SThrow w (EGear e)) /\
  (exists e, call_tpc w (TAdd None) = SThrow w (EGear e)).
Proof.
  intros w a H. apply reached_book in H. split; [|split].
  - intros A. destruct (add_accepted w a H A) as (t & E & T1 & T2 & T3 & T4 & _). unfold call_tpc. rewrite E.
    eexists. split; [reflexivity|]. cbn [w_tpc w_heap]. auto.
  - intros A. destruct (add_refused w a H A) as (e & E). unfold call_tpc. rewrite E. exists e. now destruct w.
  - destruct w. eexists. reflexivity.
Qed.

(** calls other than addModule and setPadLayout never change the list of modules; setPadLayout works
    exactly on an empty TPC and puts one module with ID 0 there *)
Lemma module_others : forall w c, (forall p, c <> TAdd p) -> (forall a p, c <> TLayout a p) ->
  forall w', after (call_tpc w c) = Some w' -> getModules (w_tpc w') = getModules (w_tpc w) /\
    forall id, getModule (w_tpc w') id = getModule (w_tpc w) id.
Proof.
  intros w c N1 N2 w' H. destruct c as [p|d|v|f|a p|a c]; unfold call_tpc in H.
  - now destruct (N1 p).
  - cbn in H. injection H as <-. auto.
  - cbn in H. injection H as <-. auto.
  - unfold setReadoutFrequency in H. destruct (t_mods (w_tpc w)) as [|a [|b l]]; cbn in H; injection H as <-; auto.
  - now destruct (N2 a p).
  - destruct (call_module (w_heap w a) c); cbn in H; [| |discriminate]; injection H as <-; auto.
Qed.
Lemma layout_set : forall w a p, tpc_reached w ->
  (getModules (w_tpc w) = [] -> exists w', call_tpc w (TLayout a (Some p)) = SOk w' tt /\
     getModules (w_tpc w') = [a] /\ w_heap w' a = new_module 0 p (getCoordinateType (w_tpc w)) 0 /\
     getModule (w_tpc w') 0 = Ok a /\ TpcModel.getPadLayout (w_heap w') (w_tpc w') = Ok a) /\
  (getModules (w_tpc w) <> [] -> exists e, call_tpc w (TLayout a (Some p)) = SThrow w (EGear e)).
Proof.
  intros w a p H. apply reached_book in H. unfold call_tpc, setPadLayout, getModules. split; intros E.
  - rewrite E. cbv zeta. set (h := heap_set (w_heap w) a (new_module 0 p (t_type (w_tpc w)) 0)).
    assert (B' : book (mkW h (w_tpc w))).
    { destruct H as [B1 B2 B3]. rewrite E in *. constructor; cbn [w_heap w_tpc]; rewrite ?E.
      - intros id. specialize (B1 id). destruct (id_find (t_map (w_tpc w)) id); [|intros x []].
        destruct B1 as (x & X & _). apply nthZ_some in X. cbn in X. lia.
      - intros x [].
      - constructor. }
    assert (HA : h a = new_module 0 p (t_type (w_tpc w)) 0) by apply heap_set_same.
    assert (A : accepts (mkW h (w_tpc w)) a).
    { split; cbn [w_heap w_tpc].
      - rewrite HA. reflexivity.
      - unfold getModules. rewrite E. intros x []. }
    destruct (add_accepted _ _ B' A) as (t & Et & T1 & T2 & T3 & T4 & T5 & _). cbn [w_heap w_tpc] in *. rewrite Et.
    eexists. split; [reflexivity|]. cbn [w_tpc w_heap]. rewrite E in T1, T5. cbn [List.app] in T1.
    split; [exact T1|split; [exact HA|split]].
    + unfold getModule. rewrite T5, HA. cbn. rewrite T1. reflexivity.
    + unfold TpcModel.getPadLayout. rewrite T1, HA. cbn -[Reqb]. destruct (Reqb_spec 0 0); [reflexivity|lra].
  - destruct (t_mods (w_tpc w)) as [|x l]; [congruence|]. eexists. reflexivity.
Qed.

(** the two calls of the old interface answer exactly for one module in global coordinates *)
Lemma old_interface : forall w,
  (forall a, TpcModel.getPadLayout (w_heap w) (w_tpc w) = Ok a <->
     getModules (w_tpc w) = [a] /\ getAngle (w_heap w a) = 0 /\ getOffset (w_heap w a) = (0, 0)) /\
  (forall f, TpcModel.getReadoutFrequency (w_heap w) (w_tpc w) = Ok f <->
     exists a, getModules (w_tpc w) = [a] /\ TpcModuleModel.getReadoutFrequency (w_heap w a) = f).
Proof.
  intros w. unfold TpcModel.getPadLayout, TpcModel.getReadoutFrequency, getModules. split.
  - intros a. destruct (t_mods (w_tpc w)) as [|x [|y l]].
    + split; [discriminate|intros [X _]; discriminate].
    + destruct (Reqb_spec (getAngle (w_heap w x)) 0) as [A|A]; cbn [negb orb].
      * unfold getOffset. cbn [fst snd].
        destruct (Reqb_spec (m_off0 (w_heap w x)) 0) as [O0|O0]; cbn [negb orb].
        -- destruct (Reqb_spec (m_off1 (w_heap w x)) 0) as [O1|O1]; cbn [negb orb].
           ++ split; [intros X; injection X as <-; rewrite O0, O1; auto|intros [X _]; injection X as <-; reflexivity].
           ++ split; [discriminate|]. intros (X & _ & Y). injection X as <-. injection Y as Y0 Y1. contradiction.
        -- split; [discriminate|]. intros (X & _ & Y). injection X as <-. injection Y as Y0 Y1. contradiction.
      * split; [discriminate|]. intros (X & Y & _). injection X as <-. contradiction.
    + split; [discriminate|intros [X _]; discriminate].
  - intros f. destruct (t_mods (w_tpc w)) as [|x [|y l]].
    + split; [discriminate|intros (a & X & _); discriminate].
    + split; [intros X; injection X as <-; eauto|]. intros (a & X & <-). injection X as <-. reflexivity.
    + split; [discriminate|intros (a & X & _); discriminate].
Qed.

(** ** extent, halves and cathode as long as modules stay as they were added *)
Definition head_z (h : heap) (l : list Z) : option R :=
  match l with [] => None | a :: _ => getZPosition (h a) end.
Record still_inv (w : world) : Prop := mkStill {
  si_ext : t_mods (w_tpc w) <> [] -> is_box_hull (map (fun a => getModuleExtent (w_heap w a)) (t_mods (w_tpc w))) (t_ext (w_tpc w));
  si_neg : t_neg (w_tpc w) = filter (on_negative (w_heap w)) (t_mods (w_tpc w));
  si_pos : t_pos (w_tpc w) = filter (on_positive (w_heap w)) (t_mods (w_tpc w));
  si_cath : (forall a, In a (t_mods (w_tpc w)) -> getZPosition (w_heap w a) <> None) ->
            t_cathode (w_tpc w) = cathode_of (head_z (w_heap w) (t_neg (w_tpc w))) (head_z (w_heap w) (t_pos (w_tpc w)))
                                             (t_drift (w_tpc w)) }.

Lemma box_hull_one : forall x, is_box_hull [x] x.
Proof.
  intros x. split.
  - intros y [<-|[]]. unfold box_in. lra.
  - intros c H. apply H. left. reflexivity.
Qed.
Lemma box_hull_grow : forall l b x, is_box_hull l b -> is_box_hull (l ++ [x]) (grow b x).
Proof.
  intros l b x [H1 H2]. unfold grow. split.
  - intros y Hy. apply in_app_iff in Hy. destruct Hy as [Hy|[<-|[]]].
    + destruct (H1 y Hy) as (A & B & C & D). unfold box_in. cbn [e0 e1 e2 e3]. repeat rcase; lra.
    + unfold box_in. cbn [e0 e1 e2 e3]. repeat rcase; lra.
  - intros c Hc. destruct (H2 c) as (A & B & C & D).
    { intros y Hy. apply Hc, in_app_iff. auto. }
    destruct (Hc x) as (A' & B' & C' & D'); [apply in_app_iff; right; left; reflexivity|].
    unfold box_in. cbn [e0 e1 e2 e3]. repeat rcase; lra.
Qed.

Lemma filter_ext_in' : forall (f g : Z -> bool) l, (forall a, In a l -> f a = g a) -> filter f l = filter g l.
Proof. induction l as [|a l IH]; intros H; cbn; [auto|]. rewrite (H a) by (left; auto). rewrite IH; [auto|]. intros; apply H; right; auto. Qed.

Lemma still_heap : forall w h t, still_inv w ->
  (forall a, In a (t_mods (w_tpc w)) -> getModuleExtent (h a) = getModuleExtent (w_heap w a) /\ getZPosition (h a) = getZPosition (w_heap w a)) ->
  t_mods t = t_mods (w_tpc w) -> t_neg t = t_neg (w_tpc w) -> t_pos t = t_pos (w_tpc w) -> t_ext t = t_ext (w_tpc w) ->
  t_drift t = t_drift (w_tpc w) -> t_cathode t = t_cathode (w_tpc w) -> still_inv (mkW h t).
Proof.
  intros w h t [S1 S2 S3 S4] H T1 T2 T3 T4 T5 T6.
  assert (FN : filter (on_negative h) (t_mods (w_tpc w)) = filter (on_negative (w_heap w)) (t_mods (w_tpc w))).
  { apply filter_ext_in'. intros a A. unfold on_negative. now rewrite (proj2 (H a A)). }
  assert (FP : filter (on_positive h) (t_mods (w_tpc w)) = filter (on_positive (w_heap w)) (t_mods (w_tpc w))).
  { apply filter_ext_in'. intros a A. unfold on_positive. now rewrite (proj2 (H a A)). }
  assert (HN : head_z h (t_neg (w_tpc w)) = head_z (w_heap w) (t_neg (w_tpc w))).
  { unfold head_z. destruct (t_neg (w_tpc w)) as [|a l] eqn:E; [reflexivity|]. apply H.
    assert (In a (t_neg (w_tpc w))) by (rewrite E; left; auto). rewrite E, S2 in H0. apply filter_In in H0. tauto. }
  assert (HP : head_z h (t_pos (w_tpc w)) = head_z (w_heap w) (t_pos (w_tpc w))).
  { unfold head_z. destruct (t_pos (w_tpc w)) as [|a l] eqn:E; [reflexivity|]. apply H.
    assert (In a (t_pos (w_tpc w))) by (rewrite E; left; auto). rewrite E, S3 in H0. apply filter_In in H0. tauto. }
  constructor; cbn [w_heap w_tpc]; rewrite ?T1, ?T2, ?T3, ?T4, ?T5, ?T6.
  - intros N. erewrite map_ext_in; [exact (S1 N)|]. intros a A. exact (proj1 (H a A)).
  - congruence.
  - congruence.
  - intros N. rewrite HN, HP. apply S4. intros a A. rewrite <- (proj2 (H a A)). now apply N.
Qed.

Lemma cathode_heads : forall h neg pos drift old,
  (forall a, In a neg -> getZPosition (h a) <> None) -> (forall a, In a pos -> getZPosition (h a) <> None) ->
  (neg = [] -> pos = [] -> old = 0) ->
  cathode h pos neg drift old = cathode_of (head_z h neg) (head_z h pos) drift.
Proof.
  intros h neg pos drift old H1 H2 H3. unfold cathode, cathode_of, head_z.
  destruct neg as [|n neg], pos as [|p pos].
  - now apply H3.
  - specialize (H2 p (or_introl eq_refl)). destruct (getZPosition (h p)); [reflexivity|congruence].
  - specialize (H1 n (or_introl eq_refl)). destruct (getZPosition (h n)); [reflexivity|congruence].
  - specialize (H1 n (or_introl eq_refl)). specialize (H2 p (or_introl eq_refl)).
    destruct (getZPosition (h n)), (getZPosition (h p)); try reflexivity; congruence.
Qed.

Lemma still_add : forall w a t, book w -> still_inv w -> accepts w a ->
  addModule (w_heap w) (w_tpc w) (Some a) = SOk t tt -> still_inv (mkW (w_heap w) t).
Proof.
  intros w a t B [S1 S2 S3 S4] A H.
  destruct (add_accepted w a B A) as (t' & E & T1 & T2 & T3 & T4 & T5 & T6 & T7 & T8 & T9). rewrite H in E.
  injection E as <-. constructor; cbn [w_heap w_tpc].
  - intros _. rewrite T1, T6, map_app. cbn [map]. unfold extent_with. destruct (t_mods (w_tpc w)) as [|x l].
    + cbn [map List.app]. apply box_hull_one.
    + apply box_hull_grow, S1. discriminate.
  - rewrite T7, T1, filter_app, S2. reflexivity.
  - rewrite T8, T1, filter_app, S3. reflexivity.
  - rewrite T1. intros N. rewrite T9, T3.
    destruct (getZPosition (w_heap w a)) as [z|] eqn:Z.
    + assert (NI : forall b, In b (t_neg t) -> getZPosition (w_heap w b) <> None).
      { intros b Hb. apply N. rewrite T7, S2, <- filter_app in Hb. apply filter_In in Hb. tauto. }
      assert (PI : forall b, In b (t_pos t) -> getZPosition (w_heap w b) <> None).
      { intros b Hb. apply N. rewrite T8, S3, <- filter_app in Hb. apply filter_In in Hb. tauto. }
      apply cathode_heads; auto. intros X Y. exfalso. rewrite T7 in X. rewrite T8 in Y.
      apply app_eq_nil in X, Y. destruct X as [_ X], Y as [_ Y]. cbn [filter] in X, Y.
      unfold on_negative in X. unfold on_positive in Y. rewrite Z in X, Y. rewrite Rltb_Rleb in Y.
      destruct (Rleb z 0); discriminate.
    + exfalso. apply (N a); [apply in_app_iff; right; left; reflexivity|exact Z].
Qed.
Lemma still_new : forall h drift type, still_inv (mkW h (new_tpc drift type)).
Proof. intros. constructor; cbn; auto. congruence. Qed.

Lemma freq_same : forall m f m', TpcModuleModel.setReadoutFrequency m f = SOk m' tt ->
  getModuleExtent m' = getModuleExtent m /\ getZPosition m' = getZPosition m.
Proof. intros m f m' H. cbn in H. injection H as <-. auto. Qed.

Lemma still_step : forall w c w', book w -> still_inv w -> still_call w c -> after (call_tpc w c) = Some w' -> still_inv w'.
Proof.
  intros w c w' B S C H. destruct c as [p|d|v|f|a p|a c]; unfold call_tpc in H.
  - destruct p as [a|].
    + destruct (accepts_dec w a) as [A|A].
      * destruct (add_accepted w a B A) as (t & E & _). rewrite E in H. cbn in H. injection H as <-.
        eapply still_add; eauto.
      * destruct (add_refused w a B A) as (e & E). rewrite E in H. cbn in H. injection H as <-. now destruct w.
    + cbn in H. injection H as <-. now destruct w.
  - cbn in H. injection H as <-. destruct S as [S1 S2 S3 S4]. constructor; cbn [w_heap w_tpc setMaxDriftLength t_mods t_neg t_pos t_ext t_drift t_cathode]; auto.
    intros N. apply cathode_heads.
    + intros b Hb. apply N. rewrite S2 in Hb. apply filter_In in Hb. tauto.
    + intros b Hb. apply N. rewrite S3 in Hb. apply filter_In in Hb. tauto.
    + intros X Y. rewrite (S4 N), X, Y. reflexivity.
  - cbn in H. injection H as <-. apply (still_heap w); auto.
  - unfold setReadoutFrequency in H. destruct (t_mods (w_tpc w)) as [|a [|b l]] eqn:E.
    + cbn in H. now injection H as <-.
    + cbn in H. injection H as <-. apply (still_heap w); auto. intros b _. unfold heap_set.
      destruct (Z.eqb_spec b a); [subst b|]; auto.
    + cbn in H. now injection H as <-.
  - unfold setPadLayout in H. destruct (t_mods (w_tpc w)) as [|b l] eqn:E.
    + destruct p as [p|]; [|discriminate]. cbv zeta in H.
      set (h := heap_set (w_heap w) a (new_module 0 p (t_type (w_tpc w)) 0)) in *.
      assert (B' : book (mkW h (w_tpc w))).
      { destruct B as [B1 B2 B3]. rewrite E in *. constructor; cbn [w_heap w_tpc]; rewrite ?E.
        - intros id. specialize (B1 id). destruct (id_find (t_map (w_tpc w)) id); [|intros x []].
          destruct B1 as (x & X & _). apply nthZ_some in X. cbn in X. lia.
        - intros x [].
        - constructor. }
      assert (A : accepts (mkW h (w_tpc w)) a).
      { split; cbn [w_heap w_tpc].
        - unfold h. rewrite heap_set_same. reflexivity.
        - unfold getModules. rewrite E. intros x []. }
      destruct (add_accepted _ _ B' A) as (t & Et & _). cbn [w_heap w_tpc] in Et. rewrite Et in H. cbn in H.
      injection H as <-. apply (still_add (mkW h (w_tpc w)) a t B'); auto.
      apply (still_heap w); auto. rewrite E. intros x [].
    + cbn in H. now injection H as <-.
  - assert (X : exists m', state_of (call_module (w_heap w a) c) = Some m' /\ w' = mkW (heap_set (w_heap w) a m') (w_tpc w)).
    { destruct (call_module (w_heap w a) c) as [m' []|m' e|]; cbn in H |- *; [| |discriminate]; injection H as <-; eauto. }
    destruct X as (m' & X & ->). apply (still_heap w); auto. intros b Hb. unfold heap_set.
    destruct (Z.eqb_spec b a) as [->|]; [|auto].
    destruct c; cbn [still_call] in C; try (exfalso; exact (C Hb)).
    cbn in X. injection X as <-. auto.
Qed.
Lemma still_run : forall h w w', book w -> still_inv w -> still w h -> tpc_run w h = Some w' -> still_inv w'.
Proof.
  induction h as [|c h IH]; intros w w' B S C H; cbn in H, C.
  - now injection H as <-.
  - destruct (after (call_tpc w c)) as [w1|] eqn:E; [|discriminate]. destruct C as [C1 C2].
    eapply IH; [| |exact C2|exact H]; [eapply book_step; eauto|eapply still_step; eauto].
Qed.
Lemma still_is : forall w, tpc_still w -> still_inv w.
Proof. intros w (d & t & h & calls & S & H). eapply still_run; [apply book_new|apply still_new|exact S|exact H]. Qed.

Lemma plane_extent : forall w, tpc_still w ->
  (getModules (w_tpc w) <> [] -> exists b, getPlaneExtent (w_tpc w) = Ok b /\
     is_box_hull (map (fun a => getModuleExtent (w_heap w a)) (getModules (w_tpc w))) b) /\
  (getModules (w_tpc w) = [] -> exists e, getPlaneExtent (w_tpc w) = Throw (EGear e)).
Proof.
  intros w H. apply still_is in H. unfold getPlaneExtent, getModules. split.
  - intros N. exists (t_ext (w_tpc w)). split; [|exact (si_ext _ H N)]. destruct (t_mods (w_tpc w)); [congruence|reflexivity].
  - intros ->. eexists. reflexivity.
Qed.
(** a module that is moved later does not move the extent *)
Lemma plane_extent_stale : forall w a c w', after (call_tpc w (TMod a c)) = Some w' ->
  getPlaneExtent (w_tpc w') = getPlaneExtent (w_tpc w).
Proof.
  intros w a c w' H. unfold call_tpc in H. destruct (call_module (w_heap w a) c); cbn in H; [| |discriminate]; injection H as <-; auto.
Qed.

(** the halves *)
Lemma halves : forall w, tpc_still w -> exists cath,
  ((forall a, In a (getModules (w_tpc w)) -> getZPosition (w_heap w a) <> None) ->
   cath = cathode_of (hd None (zs (w_heap w) (filter (on_negative (w_heap w)) (getModules (w_tpc w)))))
                     (hd None (zs (w_heap w) (filter (on_positive (w_heap w)) (getModules (w_tpc w)))))
                     (getMaxDriftLength (w_tpc w))) /\
  forall z, half (w_tpc w) z = filter (if Rleb z cath then on_negative (w_heap w) else on_positive (w_heap w)) (getModules (w_tpc w)).
Proof.
  intros w H. apply still_is in H. destruct H as [S1 S2 S3 S4]. exists (t_cathode (w_tpc w)). split.
  - intros N. rewrite (S4 N). unfold getMaxDriftLength, getModules. rewrite <- S2, <- S3.
    unfold head_z, zs. destruct (t_neg (w_tpc w)), (t_pos (w_tpc w)); reflexivity.
  - intros z. unfold half, getModules. destruct (Rleb z (t_cathode (w_tpc w))); [exact S2|exact S3].
Qed.
Lemma half_calls : forall w fuel c0 c1 z,
  getNearestModule3 (w_heap w) (w_tpc w) c0 c1 z = nearest_in (w_heap w) c0 c1 (half (w_tpc w) z) /\
  isInsideModule3 (w_heap w) (w_tpc w) c0 c1 z = inside_in (w_heap w) c0 c1 (half (w_tpc w) z) /\
  isInsidePad3 fuel (w_heap w) (w_tpc w) c0 c1 z = inside_pad_in fuel (w_heap w) c0 c1 (half (w_tpc w) z) /\
  getNearestPad3 fuel (w_heap w) (w_tpc w) c0 c1 z = nearest_pad_in fuel (w_heap w) c0 c1 (half (w_tpc w) z).
Proof. intros. repeat split. Qed.
