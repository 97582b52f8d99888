(** Proofs about the printing of calorimeters. *)
From Coq Require Import ZArith List String Ascii Bool Reals Lia Lra.
From Flocq Require Import Core.
From Verif Require Import Base BaseProofs RBase XmlModel XmlSpec XmlProofs NumModel NumSpec NumProofs VecModel ParamsModel CaloModel CaloSpec CaloProofs
  ZpModel ZpSpec FtdModel FtdSpec FtdProofs TrkModel TpcModuleModel TpcModel CaloXmlModel TrkXmlModel TpcXmlModel GearXmlModel UtilModel UtilSpec UtilTextProofs UtilProofs.
Import ListNotations.
Local Open Scope list_scope.

Definition line_for (i : Z) (x : layer) : layer_line :=
  mkLL i (L_Thickness x) (L_AbsorberThickness x) (L_Distance x) (L_CellSize0 x) (L_CellSize1 x).
Fixpoint lines_from (rest : list layer) (n i : Z) (lt la : R) : list layer_line :=
  match rest with
  | [] => []
  | x :: r =>
      (if (negb (Reqb (L_Thickness x) lt) || negb (Reqb (L_AbsorberThickness x) la)) || (i =? n - 1)%Z then [line_for i x] else []) ++
      lines_from r n (i + 1) (L_Thickness x) (L_AbsorberThickness x)
  end.
Lemma skipn_at : forall A (v : list A) k x r, skipn k v = x :: r -> at_ v (Z.of_nat k) = Ok x /\ skipn (S k) v = r.
Proof.
  intros A v k x r E. split.
  - unfold at_. rewrite nthZ_of_nat. assert (N : nth_error (skipn k v) 0 = Some x) by now rewrite E.
    assert (H : forall (w : list A) j, nth_error (skipn j w) 0 = nth_error w j).
    { induction w as [|a w IH]; intros [|j]; try reflexivity. cbn [skipn nth_error]. apply IH. }
    rewrite H in N. now rewrite N.
  - revert v E. induction k as [|k IH]; intros v E; destruct v as [|a v]; try discriminate.
    + cbn in *. congruence.
    + cbn [skipn] in *. now apply IH.
Qed.
Lemma layers_written : forall v rest k lt la, skipn k v = rest ->
  writes (print_layers v (List.length rest) (Z.of_nat k) lt la) (fun f => flat_map (line_tokens f) (lines_from rest (getNLayers v) (Z.of_nat k) lt la)).
Proof.
  intros v. induction rest as [|x r IH]; intros k lt la E; [apply writes_nothing|].
  destruct (skipn_at _ _ _ _ _ E) as [A R]. cbn [List.length print_layers lines_from].
  unfold getThickness, getAbsorberThickness, getDistance, getCellSize0, getCellSize1. rewrite A. cbn [rmap].
  specialize (IH (S k) (L_Thickness x) (L_AbsorberThickness x) R). rewrite Nat2Z.inj_succ in IH. unfold Z.succ in IH.
  eapply writes_have; [reflexivity|]. eapply writes_have; [reflexivity|].
  eapply writes_ext; [|eapply writes_then; [|exact IH]].
  2:{ instantiate (1 := fun f => flat_map (line_tokens f) (if (negb (Reqb (L_Thickness x) lt) || negb (Reqb (L_AbsorberThickness x) la)) || (Z.of_nat k =? getNLayers v - 1)%Z then [line_for (Z.of_nat k) x] else [])).
      destruct ((negb (Reqb (L_Thickness x) lt) || negb (Reqb (L_AbsorberThickness x) la)) || (Z.of_nat k =? getNLayers v - 1)%Z); [|apply writes_nothing].
      do 3 (eapply writes_have; [reflexivity|]). eapply writes_ext; [|wr]. intros f. reflexivity. }
  intros f. cbv beta. rewrite flat_map_app. reflexivity.
Qed.
Lemma lines_ids : forall rest n i lt la x, In x (lines_from rest n i lt la) ->
  (i <= ll_id x < i + Z.of_nat (List.length rest))%Z /\
  exists y, nth_error rest (Z.to_nat (ll_id x - i)) = Some y /\ x = line_for (ll_id x) y.
Proof.
  induction rest as [|y r IH]; intros n i lt la x H; [destruct H|]. cbn [lines_from] in H. apply in_app_or in H. cbn [List.length]. destruct H as [H|H].
  - destruct ((_ || _) || _)%bool; [|destruct H]. destruct H as [<-|[]]. cbn [ll_id line_for]. split; [lia|].
    rewrite Z.sub_diag. exists y. split; reflexivity.
  - apply IH in H. destruct H as [B [z [Nz E]]]. split; [lia|]. exists z. split; [|exact E].
    replace (Z.to_nat (ll_id x - i)) with (S (Z.to_nat (ll_id x - (i + 1)))) by lia. exact Nz.
Qed.
Lemma increasing_cons : forall a l, (forall b, In b l -> (a < b)%Z) -> increasing l -> increasing (a :: l).
Proof. intros a [|b l] H I; [exact Logic.I|]. cbn [increasing]. split; [apply H; now left|exact I]. Qed.
Lemma lines_increasing : forall rest n i lt la, increasing (map ll_id (lines_from rest n i lt la)).
Proof.
  induction rest as [|y r IH]; intros n i lt la; [exact I|]. cbn [lines_from].
  destruct ((_ || _) || _)%bool; [|apply IH]. cbn [app map]. apply increasing_cons; [|apply IH].
  intros b B. apply in_map_iff in B. destruct B as [x [<- X]]. apply lines_ids in X. cbn [ll_id line_for]. lia.
Qed.
Lemma read_above : forall ls j last, (forall x, In x ls -> (j < ll_id x)%Z) -> read_off ls j last = last.
Proof.
  intros [|x r] j last H; [reflexivity|]. cbn [read_off]. specialize (H x (or_introl eq_refl)). destruct (Z.leb_spec (ll_id x) j); [lia|reflexivity].
Qed.
Lemma lines_read : forall rest n i lt la k y, nth_error rest k = Some y ->
  read_off (lines_from rest n i lt la) (i + Z.of_nat k) (lt, la) = (L_Thickness y, L_AbsorberThickness y).
Proof.
  induction rest as [|x r IH]; intros n i lt la k y H; [destruct k; discriminate|]. cbn [lines_from].
  assert (S : read_off (lines_from r n (i + 1) (L_Thickness x) (L_AbsorberThickness x)) (i + Z.of_nat k) (L_Thickness x, L_AbsorberThickness x) = (L_Thickness y, L_AbsorberThickness y)).
  { destruct k as [|k].
    - injection H as <-. apply read_above. intros z Z. apply lines_ids in Z. lia.
    - cbn [nth_error] in H. replace (i + Z.of_nat (S k))%Z with (i + 1 + Z.of_nat k)%Z by lia. now apply IH. }
  destruct ((negb (Reqb (L_Thickness x) lt) || negb (Reqb (L_AbsorberThickness x) la)) || (i =? n - 1)%Z) eqn:C.
  - cbn [app read_off]. cbn [ll_id line_for]. destruct (Z.leb_spec i (i + Z.of_nat k)); [|lia]. cbn [ll_thickness ll_absorber line_for]. exact S.
  - cbn [app]. apply orb_false_iff in C. destruct C as [C _]. apply orb_false_iff in C. destruct C as [C1 C2].
    apply negb_false_iff, Reqb_true in C1. apply negb_false_iff, Reqb_true in C2. rewrite <- C1, <- C2. exact S.
Qed.
Lemma lines_last : forall rest i lt la, rest <> [] -> exists x, In x (lines_from rest (i + Z.of_nat (List.length rest)) i lt la) /\
  ll_id x = (i + Z.of_nat (List.length rest) - 1)%Z.
Proof.
  induction rest as [|y r IH]; intros i lt la N; [congruence|]. cbn [lines_from List.length].
  destruct r as [|z r].
  - exists (line_for i y). cbn [List.length]. split; [|cbn [ll_id line_for]; lia].
    apply in_or_app. left. replace (i =? i + Z.of_nat 1 - 1)%Z with true by (symmetry; apply Z.eqb_eq; lia). rewrite orb_true_r. now left.
  - destruct (IH (i + 1)%Z (L_Thickness y) (L_AbsorberThickness y)) as [x [X E]]; [discriminate|]. exists x.
    replace (i + Z.of_nat (S (List.length (z :: r))))%Z with (i + 1 + Z.of_nat (List.length (z :: r)))%Z by (cbn [List.length]; lia).
    split; [apply in_or_app; now right|exact E].
Qed.
Definition lines_of (v : layout) : list layer_line := lines_from v (getNLayers v) 0 0 0.
Lemma at_nth : forall A (v : list A) i x, nth_error v i = Some x -> at_ v (Z.of_nat i) = Ok x.
Proof. intros. unfold at_. now rewrite nthZ_of_nat, H. Qed.
Lemma layers_shown : forall v,
  increasing (map ll_id (lines_of v)) /\ Forall (line_of v) (lines_of v) /\
  (v <> [] -> exists x, In x (lines_of v) /\ ll_id x = (getNLayers v - 1)%Z) /\
  (forall i t a, getThickness v i = Ok t -> getAbsorberThickness v i = Ok a -> read_off (lines_of v) i (0, 0) = (t, a)).
Proof.
  intros v. split; [apply lines_increasing|]. split; [|split].
  - apply Forall_forall. intros x X. apply lines_ids in X. destruct X as [B [y [N E]]]. rewrite Z.sub_0_r in N. apply at_nth in N.
    rewrite Z2Nat.id in N by lia. unfold line_of, getThickness, getAbsorberThickness, getDistance, getCellSize0, getCellSize1. rewrite N. rewrite E. cbn [rmap]. repeat split.
  - intros N. destruct (lines_last v 0 0 0 N) as [x [X E]]. exists x. exact (conj X E).
  - intros i t a T A. unfold getThickness, getAbsorberThickness, at_, nthZ in T, A. destruct (Z.ltb_spec i 0); [discriminate|].
    destruct (nth_error v (Z.to_nat i)) as [y|] eqn:E; [|discriminate]. cbn [rmap] in T, A. injection T as <-. injection A as <-.
    pose proof (lines_read v (getNLayers v) 0 0 0 _ _ E) as X. rewrite Z2Nat.id in X by lia. exact X.
Qed.

Lemma writes_same : forall p q l, (forall s, p s = q s) -> writes q l -> writes p l.
Proof. intros p q l E W s. rewrite E. apply W. Qed.
Lemma made_extent : forall o, calo_printable o -> exists c' a b c d, getExtent (fst o) = SOk c' [a; b; c; d].
Proof.
  intros o [c [h [E [[rMin [zMax [n [phi ->]]]]|[rMin [rMax [zMin [n [phi ->]]]]]]]]].
  - destruct (calo_barrel rMin zMax n phi h) as [_ [_ [_ [c' X]]]]. rewrite E, X. repeat eexists.
  - destruct (calo_endcap rMin rMax zMin n phi h) as [_ [_ [_ [c' X]]]]. rewrite E, X. repeat eexists.
Qed.
Lemma calo_written : forall c ps lp, calo_printable (c, ps) -> writes (print_params ps) lp ->
  exists l, writes (print_calo (c, ps)) l /\ forall f,
    occurs (lp f) (l f) /\
    occurs [Text (match getLayoutType c with BARREL => "  calorimeter type:  barrel  " | ENDCAP => "  calorimeter type:  endcap  " end); Text newline;
            Text "   symmetry order:  "; Int f (getSymmetryOrder c); Text newline; Text "   phi0:            "; Double f (getPhi0 c)] (l f) /\
    (forall c' rMin rMax zMin zMax, getExtent c = SOk c' [rMin; rMax; zMin; zMax] ->
     occurs [Text "         rMin:      "; Double f rMin; Text newline; Text "         rMax:      "; Double f rMax; Text newline;
             Text "         zMin:      "; Double f zMin; Text newline; Text "         zMax:      "; Double f zMax; Text newline] (l f)) /\
    occurs ([Text "   layers    :    #total "; Int f (getNLayers (getLayerLayout c)); Text newline] ++
            flat_map (line_tokens f) (lines_of (getLayerLayout c))) (l f).
Proof.
  intros c ps lp H W. destruct (made_extent _ H) as [c' [a [b [z1 [z2 X]]]]]. cbn [fst] in X.
  assert (LW : writes (print_layers (getLayerLayout c) (Z.to_nat (getNLayers (getLayerLayout c))) 0 0 0) (fun f => flat_map (line_tokens f) (lines_of (getLayerLayout c)))).
  { unfold getNLayers. rewrite Nat2Z.id. apply (layers_written (getLayerLayout c) (getLayerLayout c) 0 0 0 eq_refl). }
  eexists. split.
  - unfold print_calo. do 10 (eapply writes_then; [first [exact W | apply writes_endl | apply writes_text | apply writes_int | apply writes_double]|]).
    eapply writes_same; [intros s; rewrite X; reflexivity|]. wr.
  - intros f. cbv beta. repeat split; try occ. intros c2 e1 e2 e3 e4 Y. rewrite X in Y. injection Y as _ <- <- <- <-. occ.
Qed.
Lemma calo_quiet : forall o, calo_printable o -> quiet (print_calo o).
Proof.
  intros [s ps] H. destruct (params_quiet ps) as [lp W]. destruct (calo_written s ps lp H W) as [l [Wl _]]. now exists l.
Qed.
