(** Proofs for C83: a calorimeter that changes with every copy. *)
From Coq Require Import ZArith Reals List String Ascii Bool Lia Lra Arith.
From Verif Require Import Base RBase XmlModel XmlSpec NumModel NumSpec NumProofs HxModel HxSpec HxProofs ParamsModel ParamsSpec ParXmlModel ParXmlSpec ParXmlProofs
  CaloModel CaloSpec CaloProofs CaloXmlModel CaloXmlSpec CaloXmlProofs DiskSpec FpsModel FpsProofs DiskProofs PadXmlModel PadXmlSpec NumProofs2 PadXmlProofs GearXmlModel CopySpec CopyProofs2.
Import ListNotations.
Open Scope R_scope.

Definition swingz (n : nat) : Z := if Nat.even n then 100015%Z else 100000%Z.
Fixpoint zz (n k : nat) : list Z :=
  match n with O => [100008%Z] | S n' => (if Nat.leb n k then 100008%Z else swingz n') :: zz n' k end.
Definition looks (v : layout) (ts : list Z) : Prop := Forall2 (fun l t => flat t l) v ts.

Lemma thick_close : forall x y l m, flat x l -> flat y m -> (0 <= x)%Z -> (0 <= y)%Z -> same_layer l m = (Z.abs (x - y) * 20000 <? x + y)%Z || (x =? y)%Z.
Proof.
  intros x y l m (A1 & A2 & A3 & A4) (B1 & B2 & B3 & B4) X Y. apply eq_true_iff_eq. rewrite same_layer_spec, orb_true_iff, Z.ltb_lt, Z.eqb_eq.
  unfold close_layers, close. rewrite A1, A2, A3, A4, B1, B2, B3, B4. rewrite <- minus_IZR, <- plus_IZR, <- !abs_IZR. rewrite (Z.abs_eq (x + y)) by lia. split.
  - intros [[E|E] _]; [right; apply eq_IZR; exact E | left]. apply lt_IZR. rewrite mult_IZR. lra.
  - intros H. split; [|repeat split; left; reflexivity]. destruct H as [H|H]; [right; apply IZR_lt in H; rewrite mult_IZR in H; lra | left; rewrite H; reflexivity].
Qed.
Lemma swings : forall n, swingz n = 100015%Z /\ swingz (S n) = 100000%Z \/ swingz n = 100000%Z /\ swingz (S n) = 100015%Z.
Proof. intros n. unfold swingz. rewrite Nat.even_succ, <- Nat.negb_even. destruct (Nat.even n); auto. Qed.
Lemma swing_of : forall n, swing n = IZR (swingz n).
Proof. intros n. unfold swing, swingz. destruct (Nat.even n); reflexivity. Qed.
Lemma zz_head : forall n k, exists r, zz n k = (if Nat.leb n k then 100008%Z else swingz (n - 1)) :: r.
Proof. intros [|n] k; cbn [zz]; [exists []; reflexivity|]. replace (S n - 1)%nat with n by lia. eexists. reflexivity. Qed.

Lemma zz_merged : forall n k v, looks v (zz n k) -> looks (merged v) (zz n (S k)).
Proof.
  induction n as [|n IH]; intros k v L.
  - cbn [zz] in L. inversion L as [|l t v' ? F R]; subst. inversion R; subst. cbn. constructor; [exact F | constructor].
  - change (zz (S n) k) with ((if Nat.leb (S n) k then 100008%Z else swingz n) :: zz n k) in L. inversion L as [|l t v' ? F0 R]; subst. assert (F : flat (if Nat.leb (S n) k then 100008%Z else swingz n) l) by exact F0. clear F0. specialize (IH k v' R). destruct (zz_head n k) as [r ZH]. rewrite ZH in R. inversion R as [|m t w ? F2 R2]; subst.
    assert (P : (0 <= (if (S n <=? k)%nat then 100008 else swingz n))%Z) by (destruct (S n <=? k)%nat; [lia | unfold swingz; destruct (Nat.even n); lia]).
    assert (P2 : (0 <= (if (n <=? k)%nat then 100008 else swingz (n - 1)))%Z) by (destruct (n <=? k)%nat; [lia | unfold swingz; destruct (Nat.even (n - 1)); lia]).
    pose proof (thick_close _ _ _ _ F F2 P P2) as TC.
    destruct (zz_head n (S k)) as [r' ZH'].
    change (zz (S n) (S k)) with ((if Nat.leb (S n) (S k) then 100008%Z else swingz n) :: zz n (S k)). destruct (Nat.leb_spec (S n) (S k)) as [K|K].
    + assert (SM : same_layer l m = true).
      { rewrite TC. rewrite (proj2 (Nat.leb_le n k)) by lia. destruct (Nat.leb (S n) k); [reflexivity|]. unfold swingz. destruct (Nat.even n); reflexivity. }
      rewrite merged_same by exact SM. constructor; [|exact IH]. unfold head_of. rewrite ZH' in IH. rewrite (proj2 (Nat.leb_le n (S k))) in IH by lia.
      destruct (merged (m :: w)) as [|x u]; inversion IH; subst. assumption.
    + assert (SM : same_layer l m = false).
      { rewrite TC. rewrite (proj2 (Nat.leb_gt n k)), (proj2 (Nat.leb_gt (S n) k)) by lia. destruct n as [|n]; [lia|]. replace (S n - 1)%nat with n by lia.
        destruct (swings n) as [[-> ->]|[-> ->]]; reflexivity. }
      rewrite merged_other by exact SM. constructor; [|exact IH]. rewrite (proj2 (Nat.leb_gt (S n) k)) in F by lia. exact F.
Qed.
Lemma placed_looks : forall ts v pos, (forall t, In t ts -> (Z.abs t < 10 ^ 10)%Z) -> looks v ts -> looks (placed pos v) ts.
Proof.
  induction ts as [|t ts IH]; intros v pos B L; inversion L as [|l ? v' ? F R]; subst; [constructor|]. cbn [placed]. constructor.
  - destruct F as (A1 & A2 & A3 & A4). unfold flat, back_layer. cbn. rewrite A1, A2, A3, A4.
    assert (K : forall z, (Z.abs z < 10 ^ 10)%Z -> atof (print_double (IZR z)) = IZR z) by (intros z Z; apply (whole_kept z Z)).
    rewrite (K t), (K 1%Z) by (try reflexivity; apply B; left; reflexivity). auto.
  - apply IH; [intros x X; apply B; right; exact X | exact R].
Qed.
Lemma zz_small : forall n k t, In t (zz n k) -> (Z.abs t < 10 ^ 10)%Z.
Proof.
  induction n as [|n IH]; intros k t I; cbn [zz] in I; [destruct I as [<-|[]]; reflexivity|]. destruct I as [<-|I]; [|apply (IH k t I)].
  destruct (S n <=? k)%nat; [reflexivity|]. unfold swingz. destruct (Nat.even n); reflexivity.
Qed.
Lemma zz_length : forall n k, List.length (zz n k) = S n.
Proof. induction n as [|n IH]; intros k; cbn; [reflexivity|]. f_equal. apply IH. Qed.

Lemma looks_length : forall v ts, looks v ts -> List.length v = List.length ts.
Proof. intros v ts L. induction L; cbn; congruence. Qed.
Lemma looks_head : forall v t r, looks v (t :: r) -> exists l w, v = l :: w /\ flat t l.
Proof. intros v t r L. inversion L; subst. eauto. Qed.
Lemma zigzag_looks : forall n pos, looks (appended pos (zigzag n)) (zz n 0).
Proof.
  induction n as [|n IH]; intros pos; [repeat constructor|]. cbn [zigzag appended zz]. constructor; [|apply IH]. rewrite swing_of. repeat split.
Qed.
Lemma zigzag_copies : forall k j n c a b z1 z2, (Z.of_nat (S n) < 2147483648)%Z -> is_int (c_sym c) -> c_extent c = [a; b; z1; z2] ->
  looks (c_layout c) (zz n j) -> exists y, copies k (c, params_empty) = Ok y /\ looks (c_layout (fst y)) (zz n (j + k)).
Proof.
  induction k as [|k IH]; intros j n c a b z1 z2 N Y E L; cbn [copies].
  - exists (c, params_empty). rewrite Nat.add_0_r. auto.
  - assert (TE : text_ok_params params_empty) by (intros t q v G; destruct t; discriminate).
    assert (NL : (getNLayers (c_layout c) < 2147483648)%Z) by (unfold getNLayers; rewrite (looks_length _ _ L), zz_length; exact N).
    destruct (reload_calo c params_empty a b z1 z2 (after_sorted []) TE Y NL E) as [b' [z2' [R _]]]. rewrite R. cbn [rbind].
    replace (j + S k)%nat with (S j + k)%nat by lia. change (back params_empty) with params_empty.
    unfold base_calo. destruct (c_type c); (eapply IH; [exact N | exact Y | reflexivity|]); cbn [set_layout c_layout]; apply placed_looks; try (apply zz_small); apply zz_merged; exact L.
Qed.

Lemma zigzag_changes : forall n k rMin zMax sym phi0, (Z.of_nat (S n) < 2147483648)%Z -> is_int sym ->
  let c := calo_run (new_barrel rMin zMax sym phi0) (zigzag n) in
  exists y, copies k (c, params_empty) = Ok y /\ getNLayers (getLayerLayout (fst y)) = Z.of_nat (S n) /\
    getThickness (getLayerLayout (fst y)) 0 = Ok (if (k <? n)%nat then swing (n - 1) else 100008).
Proof.
  intros n k rMin zMax sym phi0 N Y c.
  destruct (run_extent (zigzag n) (new_barrel rMin zMax sym phi0) rMin rMin 0 zMax eq_refl) as [b' [z2' [E _]]]. fold c in E.
  destruct (run_fixed (zigzag n) (new_barrel rMin zMax sym phi0)) as [Ty [Sy Ph]]. fold c in Ty, Sy, Ph. cbn [c_type c_sym c_phi new_barrel] in Ty, Sy, Ph.
  assert (LY : c_layout c = appended 0 (zigzag n)) by (unfold c; rewrite run_layout; reflexivity).
  destruct (zigzag_copies k 0 n c rMin b' 0 z2' N ltac:(rewrite Sy; exact Y) E) as [y [C L]]; [rewrite LY; apply zigzag_looks|].
  exists y. split; [exact C|]. unfold getLayerLayout. split; [unfold getNLayers; rewrite (looks_length _ _ L), zz_length; reflexivity|].
  cbn [Nat.add] in L. destruct (zz_head n k) as [r H]. rewrite H in L. destruct (looks_head _ _ _ L) as [l [w [-> F]]]. change (getThickness (l :: w) 0) with (Ok (L_Thickness l)).
  destruct F as [F _]. rewrite F. destruct (Nat.leb_spec n k), (Nat.ltb_spec k n); try lia; [reflexivity|]. rewrite swing_of. reflexivity.
Qed.

(** ** Disks of equal pads *)
Lemma fps_settles : forall a h l, fps_made a h l -> ordinary_disk_of_pads l -> settles fps_toXML fps_fromXML l.
Proof.
  intros a h l HM (N1 & N2 & N3 & N4 & N5 & N6) y E. pose proof (fps_made_rep _ _ _ HM) as HR.
  pose proof (frep_small a l HR) as SM. pose proof (fr_n a l HR) as Hn. pose proof (fr_len a l HR) as Hlen.
  assert (NI : is_int (fps_getNRows l)) by (unfold fps_getNRows; rewrite Hlen; unfold is_int; lia).
  assert (TW : -2 * PI <= f_phiMax l <= 2 * PI). { rewrite (fr_phi a l HR). unfold fphi. pose proof PI2_pos. apply wrap_window. lra. }
  pose proof (within_turn _ TW) as TW2. rewrite (reload_fps l NI) in E.
  assert (MY : fps_made (mkFpsArgs (reread (f_rMin l)) (reread (f_rMax l)) (reread (f_padHeight l)) (reread (f_padWidth l)) (fps_getNRows l) (reread (f_padGap l)) (reread (f_phiMax l))) [] y)
    by (exists y; split; [exact E | reflexivity]).
  assert (F : f_rMin y = reread (f_rMin l) /\ f_rMax y = reread (f_rMax l) /\ f_padHeight y = reread (f_padHeight l) /\ f_padWidth y = reread (f_padWidth l) /\
    f_padGap y = reread (f_padGap l) /\ f_phiMax y = reread (f_phiMax l) /\ fps_clone y = y).
  { unfold new_fps in E. destruct (_ || _)%bool; [discriminate|]. destruct (to_int _) as [nr| |]; cbn [rbind] in E; try discriminate.
    match type of E with (if ?b then _ else _) = _ => destruct b; [discriminate|] end.
    match type of E with rmap _ ?r = _ => destruct r; cbn [rmap] in E; try discriminate end. injection E as <-.
    cbn [f_rMin f_rMax f_padHeight f_padWidth f_padGap f_phiMax fps_clone f_nRow f_rowHeight f_nPad f_rows]. rewrite wrap_id by lra. repeat split. }
  destruct F as (F1 & F2 & F3 & F4 & F5 & F6 & F7). rewrite <- F7 at 2. apply (fps_kept_iff _ _ _ MY). unfold kept_fps. rewrite F1, F2, F3, F4, F5, F6.
  repeat split; unfold kept, reread; apply double_stable; assumption.
Qed.
