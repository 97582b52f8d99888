(** Proofs about VersatileDiskRowLayout. *)
From Coq Require Import ZArith List String Bool Reals Lra Lia.
From Flocq Require Import Core.Raux.
From Verif Require Import Base RBase BitProofs DiskBase VdModel DiskSpec DiskProofs FpsProofs FpaProofs.
From Verif Require RectSpec RectProofs5.
Import ListNotations.
Open Scope R_scope.

(** the row made for [x] as number [k] *)
Definition the_row (k : Z) (x : R * vd_args) : vrow :=
  let a := snd x in let rc := vd_rc x in
  let w := if Reqb (va_padWidth a) 0 then va_pitch a else va_padWidth a in
  mkV k (va_nPads a) (va_pitch a) (vd_pitch x) w (w / rc) (va_height a)
      (if Reqb (va_padHeight a) 0 then va_height a else va_padHeight a)
      (vd_off x * rc) (vd_off x) rc (vd_off x + vd_pitch x * IZR (va_nPads a)) (rc + va_height a * (1 / 2)) 0.

Lemma new_vrow_val : forall k lo a, vd_good lo a -> 0 <= lo ->
  new_vrow k (va_nPads a) (lo + va_height a * (1 / 2)) (va_pitch a) (va_height a)
     (if Reqb (va_padWidth a) 0 then va_pitch a else va_padWidth a)
     (if Reqb (va_padHeight a) 0 then va_height a else va_padHeight a) (va_offset a) = Ok (the_row k (lo, a)).
Proof.
  intros k lo a [Hn [Hp [Hw [Hh [Hr Hfit]]]]] Hlo. unfold new_vrow.
  assert (Erc : lo + va_height a * (1 / 2) = vd_rc (lo, a)) by (unfold vd_rc; cbn; lra).
  rewrite Erc. assert (Hrc : 0 < vd_rc (lo, a)) by (unfold vd_rc; cbn; lra).
  destruct (Reqb_spec (vd_rc (lo, a)) 0); [lra|]. pose proof PI2_pos.
  assert (Hmm : forall d, (va_offset a + d) / vd_rc (lo, a) = va_offset a / vd_rc (lo, a) + d / vd_rc (lo, a)) by (intros; field; lra).
  assert (E2 : vd_rc (lo, a) * 2 * PI / vd_rc (lo, a) = 2 * PI) by (field; lra).
  assert (Hf : va_pitch a / vd_rc (lo, a) * IZR (va_nPads a) <= 2 * PI).
  { apply Rmult_le_reg_r with (vd_rc (lo, a)); auto.
    replace (va_pitch a / vd_rc (lo, a) * IZR (va_nPads a) * vd_rc (lo, a)) with (va_pitch a * IZR (va_nPads a)) by (field; lra).
    unfold vd_rc; cbn. lra. }
  destruct (Rltb_spec (2 * PI) (va_pitch a / vd_rc (lo, a) * IZR (va_nPads a))); [lra|].
  unfold the_row, vd_off, vd_pitch. cbn [snd].
  set (o := va_offset a / vd_rc (lo, a)) in *. assert (Eo : va_offset a = o * vd_rc (lo, a)) by (unfold o; field; lra).
  destruct (Rltb_spec o (- 2 * PI)).
  - destruct (Rleb_spec (2 * PI) (o + 2 * PI)); [lra|]. f_equal. unfold o in *. rewrite Hmm, E2. f_equal; try lra.
  - destruct (Rleb_spec (2 * PI) o); f_equal; unfold o in *; rewrite ?Hmm, ?E2; f_equal; lra.
Qed.
Lemma new_vrow_full : forall k lo a w ph, 0 <= lo -> 0 < va_height a ->
  2 * PI * (lo + va_height a / 2) < va_pitch a * IZR (va_nPads a) ->
  exists e, new_vrow k (va_nPads a) (lo + va_height a * (1 / 2)) (va_pitch a) (va_height a) w ph (va_offset a) = Throw e.
Proof.
  intros k lo a w ph Hlo Hh Hf. unfold new_vrow. set (rc := lo + va_height a * (1 / 2)) in *.
  assert (Hrc : 0 < rc) by (unfold rc; lra). destruct (Reqb_spec rc 0); [lra|].
  destruct (Rltb_spec (2 * PI) (va_pitch a / rc * IZR (va_nPads a))) as [C|C]; [eauto|]. exfalso.
  apply (Rmult_le_compat_r rc) in C; [|lra].
  replace (va_pitch a / rc * IZR (va_nPads a) * rc) with (va_pitch a * IZR (va_nPads a)) in C by (field; lra).
  unfold rc in *. lra.
Qed.

Lemma good_up : forall lo lo' a, lo <= lo' -> vd_good lo a -> vd_good lo' a.
Proof.
  intros lo lo' a Hl [Hn [Hp [Hw [Hh [Hr Hfit]]]]]. pose proof PI2_pos. repeat (split; auto; try lra). nra.
Qed.

Definition more_rows (lo : R) (a : vd_args) (k : nat) : list (R * vd_args) :=
  map (fun k => (lo + IZR k * va_height a, a)) (upto k).
Lemma more_rows_S : forall lo a k, more_rows lo a (S k) = (lo, a) :: more_rows (lo + va_height a) a k.
Proof.
  intros. unfold more_rows, RectSpec.upto. rewrite !map_map. cbn [seq map]. f_equal.
  - f_equal. simpl. lra.
  - rewrite <- seq_shift, map_map. apply map_ext. intros n. f_equal. rewrite Nat2Z.inj_succ, succ_IZR. lra.
Qed.

Fixpoint rows_from (k : nat) (rows : list (R * vd_args)) : list vrow :=
  match rows with [] => [] | x :: t => the_row (Z.of_nat k) x :: rows_from (S k) t end.
Lemma rows_from_app : forall r1 r2 k, rows_from k (r1 ++ r2) = rows_from k r1 ++ rows_from (k + List.length r1) r2.
Proof.
  induction r1 as [|x t IH]; intros r2 k; cbn [rows_from app List.length].
  - now rewrite Nat.add_0_r.
  - rewrite IH. now rewrite <- plus_n_Sm.
Qed.
Lemma rows_from_length : forall r k, List.length (rows_from k r) = List.length r.
Proof. induction r; intros; cbn; auto. Qed.
Lemma rows_from_nth : forall r k n, nth_error (rows_from k r) n = option_map (the_row (Z.of_nat (k + n))) (nth_error r n).
Proof.
  induction r as [|x t IH]; intros k [|n]; cbn; auto.
  - now rewrite Nat.add_0_r.
  - rewrite IH. now rewrite <- plus_n_Sm.
Qed.
Lemma rows_from_nthZ : forall r n, nthZ (rows_from 0 r) n = option_map (the_row n) (nthZ r n).
Proof.
  intros. unfold nthZ. destruct (Z.ltb_spec n 0); auto. rewrite rows_from_nth. cbn. now rewrite Z2Nat.id by lia.
Qed.

Lemma vd_push_val : forall k lo a l rows, vd_good lo a -> 0 <= lo -> v_rows l = rows_from 0 rows ->
  vd_push k (va_nPads a) (lo + va_height a * (1 / 2)) (va_pitch a) (va_height a)
     (if Reqb (va_padWidth a) 0 then va_pitch a else va_padWidth a)
     (if Reqb (va_padHeight a) 0 then va_height a else va_padHeight a) (va_offset a) l =
  SOk (mkVd (v_nPad l) (rows_from 0 (rows ++ more_rows lo a k)) (v_e0 l) (v_e1 l) (v_e2 l) (v_e3 l) (v_padIndices l ++ repeat None k)) tt.
Proof.
  induction k as [|k IH]; intros lo a l rows HG Hlo HV; cbn [vd_push].
  - unfold more_rows, RectSpec.upto. cbn [seq map]. rewrite !app_nil_r, <- HV. destruct l; reflexivity.
  - rewrite new_vrow_val by auto. assert (Hh : 0 < va_height a) by apply HG.
    replace (lo + va_height a * (1 / 2) + va_height a) with ((lo + va_height a) + va_height a * (1 / 2)) by lra.
    rewrite (IH (lo + va_height a) a _ (rows ++ [(lo, a)])); cbn [v_nPad v_rows v_e0 v_e1 v_e2 v_e3 v_padIndices].
    + rewrite more_rows_S. rewrite <- !app_assoc. reflexivity.
    + apply (good_up lo); auto. lra.
    + lra.
    + rewrite rows_from_app. cbn [rows_from]. rewrite HV. do 2 f_equal. rewrite rows_from_length. f_equal. 
Qed.

Definition vrow_list (rows : list (R * vd_args)) (k : nat) : list Z :=
  match nth_error rows k with Some x => map (disk_pack (Z.of_nat k)) (upto (Z.to_nat (va_nPads (snd x)))) | None => [] end.

Record vrep (rMin : R) (rows : list (R * vd_args)) (top : R) (l : vd) : Prop := mkVrep {
  vr_rows : v_rows l = rows_from 0 rows;
  vr_e0 : v_e0 l = rMin; vr_e1 : v_e1 l = top;
  vr_clen : List.length (v_padIndices l) = List.length rows;
  vr_cache : cache_ok (vrow_list rows) (v_padIndices l) }.

Lemma stacked_app : forall r1 r2 lo mid hi, stacked lo r1 mid -> stacked mid r2 hi -> stacked lo (r1 ++ r2) hi.
Proof.
  induction r1 as [|x t IH]; intros r2 lo mid hi H1 H2; cbn in *.
  - subst; auto.
  - destruct H1; split; eauto.
Qed.
Lemma stacked_more : forall k lo a, stacked lo (more_rows lo a k) (lo + IZR (Z.of_nat k) * va_height a).
Proof.
  induction k as [|k IH]; intros lo a.
  - unfold more_rows, RectSpec.upto; cbn. lra.
  - rewrite more_rows_S. cbn [stacked fst snd]. split; auto.
    replace (lo + IZR (Z.of_nat (S k)) * va_height a) with (lo + va_height a + IZR (Z.of_nat k) * va_height a) by (rewrite Nat2Z.inj_succ, succ_IZR; lra).
    apply IH.
Qed.
Lemma more_rows_in : forall k lo a x, In x (more_rows lo a k) -> exists m, 0 <= m /\ x = (lo + m * va_height a, a).
Proof.
  intros k lo a x H. unfold more_rows in H. apply in_map_iff in H. destruct H as [z [<- Hz]].
  unfold RectSpec.upto in Hz. apply in_map_iff in Hz. destruct Hz as [n [<- _]]. exists (IZR (Z.of_nat n)). split; auto. apply (IZR_le 0). lia.
Qed.

(** facts that hold for every story *)
Lemma story_facts : forall rMin h rows top, 0 <= rMin -> vd_story rMin h rows top ->
  rMin <= top /\ stacked rMin rows top /\ (forall x, In x rows -> rMin <= fst x /\ vd_good (fst x) (snd x)).
Proof.
  intros rMin h rows top H0 HS. induction HS as [|h rows top a HS IH HG|h rows top a HS IH HG|h rows top r HS IH]; auto.
  - split; [lra|]. split; [reflexivity|]. intros x [].
  - destruct IH as [I1 [I2 I3]]. assert (Hh : 0 < va_height a) by apply HG. assert (Hr : (0 < va_repeat a)%Z) by apply HG.
    assert (Hr' : 0 < IZR (va_repeat a)) by (apply (IZR_lt 0); lia).
    split; [nra|]. split.
    + eapply stacked_app; eauto. pose proof (stacked_more (Z.to_nat (va_repeat a)) top a) as S. rewrite Z2Nat.id in S by lia. exact S.
    + intros x Hx. apply in_app_or in Hx. destruct Hx as [Hx|Hx]; auto. apply more_rows_in in Hx. destruct Hx as [m [Hm ->]]. cbn [fst snd].
      assert (0 <= m * va_height a) by (apply Rmult_le_pos; lra). split; [lra|]. apply (good_up top); auto. lra.
Qed.
Lemma story_row : forall rMin h rows top k x, 0 <= rMin -> vd_story rMin h rows top -> nthZ rows k = Some x ->
  rMin <= fst x /\ vd_good (fst x) (snd x) /\ 0 < vd_rc x /\ 0 <= vd_pitch x /\ vd_pitch x * IZR (va_nPads (snd x)) <= 2 * PI.
Proof.
  intros rMin h rows top k x H0 HS Hk. destruct (story_facts rMin h rows top H0 HS) as [_ [_ I]].
  assert (Hin : In x rows) by (unfold nthZ in Hk; destruct (k <? 0)%Z; [discriminate|]; eapply nth_error_In; eauto).
  destruct (I x Hin) as [I1 I2]. split; auto. split; auto. destruct I2 as [Hn [Hp [Hw [Hh [Hr Hfit]]]]].
  assert (Hrc : 0 < vd_rc x) by (unfold vd_rc; lra). split; auto. split.
  - unfold vd_pitch. apply Rmult_le_pos; auto. left. now apply Rinv_0_lt_compat.
  - apply Rmult_le_reg_r with (vd_rc x); auto. unfold vd_pitch.
    replace (va_pitch (snd x) / vd_rc x * IZR (va_nPads (snd x)) * vd_rc x) with (va_pitch (snd x) * IZR (va_nPads (snd x))) by (field; lra).
    unfold vd_rc. lra.
Qed.

(** ** the object follows the story *)
Lemma vd_index_low : forall rows l n m x, v_rows l = rows_from 0 rows ->
  nthZ rows n = Some x -> (m < va_nPads (snd x))%Z -> vd_getPadIndex l n m = Ok (disk_pack n m).
Proof.
  intros rows l n m x HV Hx Hm. pose proof (nthZ_some _ _ _ _ Hx) as Hn. unfold vd_getPadIndex.
  assert (El : vd_last_row l = (Z.of_nat (List.length rows) - 1)%Z).
  { unfold vd_last_row. rewrite HV. destruct rows as [|y t]; cbn [rows_from List.length] in *; [lia|]. now rewrite rows_from_length. }
  rewrite El. destruct (Z.ltb_spec (Z.of_nat (List.length rows) - 1) (uint32 n)) as [C|C].
  - exfalso. unfold uint32 in C. pose proof (Z.mod_le n 4294967296 ltac:(lia) ltac:(lia)). lia.
  - unfold sub. rewrite HV, rows_from_nthZ, Hx. cbn [option_map rbind v_nPads the_row].
    destruct (Z.ltb_spec (va_nPads (snd x) - 1) m); [lia|reflexivity].
Qed.
Lemma vd_index_high : forall rows l n m x, v_rows l = rows_from 0 rows ->
  nthZ rows n = Some x -> (va_nPads (snd x) <= m)%Z -> exists e, vd_getPadIndex l n m = Throw e.
Proof.
  intros rows l n m x HV Hx Hm. unfold vd_getPadIndex. destruct (vd_last_row l <? uint32 n)%Z; [eauto|].
  unfold sub. rewrite HV, rows_from_nthZ, Hx. cbn [option_map rbind v_nPads the_row].
  destruct (Z.ltb_spec (va_nPads (snd x) - 1) m); [eauto|lia].
Qed.

Definition set_vcache (l : vd) (c : list (option (list Z))) : vd :=
  mkVd (v_nPad l) (v_rows l) (v_e0 l) (v_e1 l) (v_e2 l) (v_e3 l) c.
Lemma vd_pads_rep : forall rMin rows top l, vrep rMin rows top l ->
  (forall x, In x rows -> (0 < va_nPads (snd x))%Z) -> forall r,
  exists c, vd_getPadsInRow l r = SOk (set_vcache l c) (if (r <? 0)%Z then [] else vrow_list rows (Z.to_nat r)) /\
    vrep rMin rows top (set_vcache l c).
Proof.
  intros rMin rows top l HR Hpos r. assert (Hid : set_vcache l (v_padIndices l) = l) by (destruct l; reflexivity).
  unfold vd_getPadsInRow. rewrite (vr_rows _ _ _ _ HR), rows_from_nthZ. unfold nthZ.
  destruct (Z.ltb_spec r 0) as [Hr|Hr]; [exists (v_padIndices l); rewrite Hid; auto|].
  pose proof (vr_clen _ _ _ _ HR) as Hcl.
  destruct (nth_error (v_padIndices l) (Z.to_nat r)) as [[v|]|] eqn:E.
  - exists (v_padIndices l). rewrite Hid, (vr_cache _ _ _ _ HR _ _ E). auto.
  - assert (Hlt : (Z.to_nat r < List.length (v_padIndices l))%nat) by (apply nth_error_Some; congruence).
    destruct (nth_error rows (Z.to_nat r)) as [x|] eqn:Ex; [|apply nth_error_None in Ex; lia]. cbn [option_map v_nPads the_row].
    specialize (Hpos x ltac:(eapply nth_error_In; eauto)).
    destruct (Z.ltb_spec (va_nPads (snd x)) 0); [lia|].
    assert (Ev : fill_indices (vd_getPadIndex l r) (Z.to_nat (va_nPads (snd x))) 0 = Ok (vrow_list rows (Z.to_nat r))).
    { rewrite (fill_pack _ r).
      - unfold vrow_list. rewrite Ex. unfold RectSpec.upto. rewrite map_map, Z2Nat.id by lia. f_equal; try (apply map_ext; intros; f_equal; lia).
      - intros m Hm. apply (vd_index_low rows l r m x); [apply HR| |lia]. unfold nthZ. destruct (Z.ltb_spec r 0); [lia|auto]. }
    rewrite Ev. eexists. split; [unfold set_vcache; rewrite (vr_rows _ _ _ _ HR); reflexivity|].
    destruct HR. split; cbn; auto.
    + rewrite cache_set_length by auto. lia.
    + apply cache_ok_set; auto.
  - exists (v_padIndices l). rewrite Hid. split; auto. apply nth_error_None in E.
    unfold vrow_list. destruct (nth_error rows (Z.to_nat r)) eqn:Ex; auto.
    assert (Z.to_nat r < List.length rows)%nat by (apply nth_error_Some; congruence). lia.
Qed.

Lemma good_dec : forall top a, vd_good top a \/ ~ vd_good top a.
Proof.
  intros. unfold vd_good.
  destruct (Z_lt_dec 0 (va_nPads a)), (Rle_dec 0 (va_pitch a)), (Rle_dec 0 (va_padWidth a)), (Rle_dec (va_padWidth a) (va_pitch a)),
    (Rlt_dec 0 (va_height a)), (Z_lt_dec 0 (va_repeat a)), (Rle_dec (va_pitch a * IZR (va_nPads a)) (2 * PI * (top + va_height a / 2))); tauto.
Qed.

(** addRow, exactly *)
Lemma more_rows_length : forall lo a k, List.length (more_rows lo a k) = k.
Proof. intros. unfold more_rows, RectSpec.upto. now rewrite !map_length, seq_length. Qed.
Lemma cache_ok_more : forall rows more c k, List.length c = List.length rows -> cache_ok (vrow_list rows) c ->
  cache_ok (vrow_list (rows ++ more)) (c ++ repeat None k).
Proof.
  intros rows more c k Hl HC n v E. destruct (Nat.lt_ge_cases n (List.length c)) as [Hn|Hn].
  - rewrite nth_error_app1 in E by auto. rewrite (HC n v E). unfold vrow_list. rewrite nth_error_app1 by lia. reflexivity.
  - rewrite nth_error_app2 in E by auto. apply nth_error_In in E. apply repeat_spec in E. discriminate.
Qed.
Lemma rev_last : forall A (l : list A) (x : A) k, nth_error l k = Some x -> List.length l = S k -> exists t, rev l = x :: t.
Proof.
  intros A l x k Hk Hl. destruct (rev l) as [|y t] eqn:E.
  - apply (f_equal (@List.length A)) in E. rewrite rev_length in E. cbn in E. lia.
  - exists t. f_equal. assert (El : l = rev t ++ [y]) by (rewrite <- (rev_involutive l), E; reflexivity).
    subst l. rewrite app_length in Hl. cbn in Hl. rewrite nth_error_app2 in Hk by lia. replace (k - List.length (rev t))%nat with 0%nat in Hk by lia.
    cbn in Hk. congruence.
Qed.
(** the last row of [more_rows] *)
Definition last_row (lo : R) (a : vd_args) (k : nat) : R * vd_args := (lo + IZR (Z.of_nat (k - 1)) * va_height a, a).
Lemma more_rows_last : forall lo a k, (0 < k)%nat -> nth_error (more_rows lo a k) (k - 1) = Some (last_row lo a k).
Proof.
  intros lo a k Hk. unfold more_rows, RectSpec.upto. rewrite map_map. erewrite map_nth_error; [reflexivity|].
  rewrite (nth_error_nth' _ 0%nat) by (rewrite seq_length; lia). rewrite seq_nth by lia. f_equal.
Qed.
Lemma vd_add_good : forall rMin rows top l a, 0 <= top -> vrep rMin rows top l -> vd_good top a ->
  exists l', vd_addRow l (va_nPads a) (va_pitch a) (va_height a) (va_offset a) (va_padWidth a) (va_padHeight a) (va_repeat a) = SOk l' tt /\
    vrep rMin (rows ++ more_rows top a (Z.to_nat (va_repeat a))) (top + IZR (va_repeat a) * va_height a) l' /\
    v_nPad l' = (v_nPad l + va_repeat a * va_nPads a)%Z /\
    (v_e2 l', v_e3 l') =
      vd_extent (mkVd (v_nPad l') (v_rows l') (v_e0 l) (v_e1 l) (v_e2 l) (v_e3 l) (v_padIndices l'))
        (the_row (Z.of_nat (List.length rows) + va_repeat a - 1) (last_row top a (Z.to_nat (va_repeat a)))).
Proof.
  intros rMin rows top l a Ht HR HG. assert (HG' := HG). destruct HG' as [Hn [Hp [Hw [Hh [Hr Hfit]]]]].
  unfold vd_addRow. destruct (Z.leb_spec (va_nPads a) 0); [lia|]. destruct (Rltb_spec (va_pitch a) 0); [lra|].
  destruct (Rltb_spec (va_padWidth a) 0); [lra|]. destruct (Rltb_spec (va_pitch a) (va_padWidth a)); [lra|].
  destruct (Rleb_spec (va_height a) 0); [lra|]. destruct (Z.leb_spec (va_repeat a) 0); [lia|].
  rewrite (vr_e1 _ _ _ _ HR). rewrite (vd_push_val _ top a _ rows) by (auto; apply HR). cbn [v_rows v_nPad v_e0 v_e1 v_e2 v_e3 v_padIndices].
  set (k := Z.to_nat (va_repeat a)). assert (Hk : (0 < k)%nat) by (unfold k; lia).
  destruct (rev_last _ (rows_from 0 (rows ++ more_rows top a k)) (the_row (Z.of_nat (List.length rows) + va_repeat a - 1) (last_row top a k)) (List.length rows + (k - 1))) as [t Et].
  { rewrite rows_from_nth, nth_error_app2 by lia. replace (List.length rows + (k - 1) - List.length rows)%nat with (k - 1)%nat by lia.
    rewrite more_rows_last by auto. cbn [option_map]. do 2 f_equal. unfold k in *. lia. }
  { rewrite rows_from_length, app_length, more_rows_length. lia. }
  rewrite Et. eexists. split; [reflexivity|]. split; [|split; [reflexivity|]].
  - destruct HR. split; cbn; auto.
    + rewrite !app_length, repeat_length, more_rows_length. lia.
    + apply cache_ok_more; auto.
  - cbn [v_rows v_nPad v_e0 v_e1 v_e2 v_e3 v_padIndices]. symmetry. apply surjective_pairing.
Qed.
Lemma vd_add_bad : forall rMin rows top l a, 0 <= top -> vrep rMin rows top l -> ~ vd_good top a ->
  exists n e, vd_addRow l (va_nPads a) (va_pitch a) (va_height a) (va_offset a) (va_padWidth a) (va_padHeight a) (va_repeat a) =
     SThrow (mkVd n (v_rows l) (v_e0 l) (v_e1 l) (v_e2 l) (v_e3 l) (v_padIndices l)) e /\
    (n = v_nPad l \/ n = v_nPad l + va_repeat a * va_nPads a)%Z /\
    ((0 < va_nPads a)%Z /\ 0 <= va_pitch a /\ 0 <= va_padWidth a <= va_pitch a /\ 0 < va_height a /\ (0 < va_repeat a)%Z -> 
       n = (v_nPad l + va_repeat a * va_nPads a)%Z).
Proof.
  intros rMin rows top l a Ht HR HB. assert (Hid : l = mkVd (v_nPad l) (v_rows l) (v_e0 l) (v_e1 l) (v_e2 l) (v_e3 l) (v_padIndices l)) by (destruct l; reflexivity).
  unfold vd_addRow.
  destruct (Z.leb_spec (va_nPads a) 0); [do 2 eexists; rewrite Hid at 1; split; [reflexivity|]; split; [auto|intros; lia]|].
  destruct (Rltb_spec (va_pitch a) 0); [do 2 eexists; rewrite Hid at 1; split; [reflexivity|]; split; [auto|intros; lra]|].
  destruct (Rltb_spec (va_padWidth a) 0); [do 2 eexists; rewrite Hid at 1; split; [reflexivity|]; split; [auto|intros; lra]|].
  destruct (Rltb_spec (va_pitch a) (va_padWidth a)); [do 2 eexists; rewrite Hid at 1; split; [reflexivity|]; split; [auto|intros; lra]|].
  destruct (Rleb_spec (va_height a) 0); [do 2 eexists; rewrite Hid at 1; split; [reflexivity|]; split; [auto|intros; lra]|].
  destruct (Z.leb_spec (va_repeat a) 0); [do 2 eexists; rewrite Hid at 1; split; [reflexivity|]; split; [auto|intros; lia]|].
  assert (Hf : 2 * PI * (top + va_height a / 2) < va_pitch a * IZR (va_nPads a)).
  { apply Rnot_le_lt. intros Hf. apply HB. repeat (split; auto). }
  rewrite (vr_e1 _ _ _ _ HR). replace (Z.to_nat (va_repeat a)) with (S (Z.to_nat (va_repeat a) - 1)) by lia. cbn [vd_push].
  edestruct new_vrow_full as [e E]; [exact Ht|eassumption|exact Hf|]. rewrite E.
  do 2 eexists. split; [rewrite <- (vr_e1 _ _ _ _ HR); reflexivity|]. auto.
Qed.

Lemma vd_run_app : forall h l c, vd_run l (h ++ [c]) = match vd_run l h with Some l' => vd_do l' c | None => None end.
Proof.
  induction h as [|d t IH]; intros l c; cbn [vd_run app].
  - destruct (vd_do l c); reflexivity.
  - destruct (vd_do l d); auto.
Qed.

(** Every history with a non-negative inner radius leaves a layout, and it is the one of its story. *)
Lemma vd_total : forall rMin h, 0 <= rMin -> exists l rows top, vd_made rMin h l /\ vd_story rMin h rows top /\ vrep rMin rows top l.
Proof.
  intros rMin h H0. unfold vd_made. induction h as [|c h IH] using rev_ind.
  - exists (new_vd rMin), [], rMin. split; [reflexivity|]. split; [constructor|]. split; cbn; auto. apply (cache_ok_none _ 0).
  - destruct IH as [l [rows [top [HM [HS HR]]]]]. destruct (story_facts rMin h rows top H0 HS) as [Ht [_ Hgood]].
    setoid_rewrite vd_run_app. rewrite HM. destruct c as [a|r]; cbn [vd_do].
    + destruct (good_dec top a) as [HG|HB].
      * destruct (vd_add_good rMin rows top l a ltac:(lra) HR HG) as [l' [E [HR' _]]]. rewrite E.
        eexists _, _, _. split; [reflexivity|]. split; [apply vs_add; eauto|exact HR'].
      * destruct (vd_add_bad rMin rows top l a ltac:(lra) HR HB) as [n [e [E _]]]. rewrite E.
        eexists _, rows, top. split; [reflexivity|]. split; [apply vs_refused; auto|]. destruct HR; split; auto.
    + destruct (vd_pads_rep rMin rows top l HR) with (r := r) as [c [E HR']].
      { intros x Hx. apply Hgood in Hx. destruct Hx as [_ Hx]. apply Hx. }
      rewrite E. eexists _, rows, top. split; [reflexivity|]. split; [apply vs_asked; auto|exact HR'].
Qed.
(** the story of a history is unique *)
Lemma story_fun : forall rMin h rows top rows' top', vd_story rMin h rows top -> vd_story rMin h rows' top' -> rows = rows' /\ top = top'.
Proof.
  intros rMin h rows top rows' top' H. revert rows' top'. induction H as [|h rows top a HS IH HG|h rows top a HS IH HG|h rows top r HS IH]; intros rows' top' H'.
  - inversion H'; try (destruct h; discriminate). auto.
  - inversion H' as [E|h' rr tt a' HS' HG' E|h' rr tt a' HS' HG' E|h' rr tt r' HS' E]; try (apply app_inj_tail in E; destruct E as [-> E]; try discriminate; injection E as ->); subst; try (destruct h; discriminate).
    + destruct (IH _ _ HS') as [-> ->]. auto.
    + destruct (IH _ _ HS') as [-> ->]. contradiction.
  - inversion H' as [E|h' rr tt a' HS' HG' E|h' rr tt a' HS' HG' E|h' rr tt r' HS' E]; try (apply app_inj_tail in E; destruct E as [-> E]; try discriminate; injection E as ->); subst; try (destruct h; discriminate).
    + destruct (IH _ _ HS') as [-> ->]. contradiction.
    + destruct (IH _ _ HS') as [-> ->]. auto.
  - inversion H' as [E|h' rr tt a' HS' HG' E|h' rr tt a' HS' HG' E|h' rr tt r' HS' E]; try (apply app_inj_tail in E; destruct E as [-> E]; try discriminate; injection E as ->); subst; try (destruct h; discriminate).
    auto.
Qed.
Lemma vd_rep : forall rMin h l rows top, 0 <= rMin -> vd_made rMin h l -> vd_story rMin h rows top -> vrep rMin rows top l.
Proof.
  intros rMin h l rows top H0 HM HS. destruct (vd_total rMin h H0) as [l' [rows' [top' [HM' [HS' HR]]]]].
  destruct (story_fun _ _ _ _ _ _ HS HS') as [-> ->]. unfold vd_made in *. congruence.
Qed.
