(** Bit arithmetic used by the pad index and cell id codings. *)
From Coq Require Import ZArith Lia Bool.
From Verif Require Import Base RBase.
Open Scope Z_scope.

Lemma lor_shiftl_add : forall a b n, 0 <= n -> 0 <= b < 2 ^ n ->
  Z.lor (Z.shiftl a n) b = a * 2 ^ n + b.
Proof.
  intros a b n Hn Hb. rewrite <- Z.shiftl_mul_pow2 by lia.
  assert (Hl : Z.land (Z.shiftl a n) b = 0).
  { apply Z.bits_inj'; intros k Hk. rewrite Z.land_spec, Z.bits_0.
    destruct (Z.lt_ge_cases k n).
    - rewrite Z.shiftl_spec_low by lia. reflexivity.
    - assert (Z.testbit b k = false).
      { rewrite <- (Z.mod_small b (2 ^ n)) by lia. apply Z.mod_pow2_bits_high. lia. }
      rewrite H0. apply andb_false_r. }
  rewrite Z.add_nocarry_lxor by exact Hl. symmetry. now apply Z.lxor_lor.
Qed.

Lemma land_65535 : forall p, Z.land 65535 p = p mod 65536.
Proof. intros p. rewrite Z.land_comm. exact (Z.land_ones p 16 ltac:(lia)). Qed.

Lemma land_65535_range : forall p, 0 <= Z.land 65535 p < 65536.
Proof. intros; rewrite land_65535. apply Z.mod_pos_bound; lia. Qed.

Lemma land_hi16 : forall u, 0 <= u < 4294967296 -> Z.shiftr (Z.land 4294901760 u) 16 = u / 65536.
Proof.
  intros u Hu. change 65536 with (2 ^ 16). rewrite <- Z.shiftr_div_pow2 by lia.
  apply Z.bits_inj'; intros k Hk. rewrite !Z.shiftr_spec by lia. rewrite Z.land_spec.
  destruct (Z.lt_ge_cases k 16).
  - change 4294901760 with (Z.shiftl (Z.ones 16) 16). rewrite Z.shiftl_spec by lia.
    replace (k + 16 - 16) with k by lia. rewrite Z.ones_spec_low by lia. reflexivity.
  - assert (Z.testbit u (k + 16) = false).
    { rewrite <- (Z.mod_small u (2 ^ 32)) by (change (2 ^ 32) with 4294967296; lia).
      apply Z.mod_pow2_bits_high. lia. }
    rewrite H0. apply andb_false_r.
Qed.

Lemma uint32_int32 : forall z, uint32 (int32 z) = uint32 z.
Proof.
  intros z. unfold uint32, int32.
  destruct (Z.ltb_spec (z mod 4294967296) 2147483648).
  - apply Z.mod_mod; lia.
  - rewrite <- (Z.mod_mod z 4294967296) at 2 by lia.
    replace (z mod 4294967296 - 4294967296) with (z mod 4294967296 + (-1) * 4294967296) by lia.
    apply Z.mod_add; lia.
Qed.

Lemma int32_mod_65536 : forall z, int32 z mod 65536 = z mod 65536.
Proof.
  intros z. unfold int32.
  assert (Hm : (z mod 4294967296) mod 65536 = z mod 65536).
  { change 4294967296 with (65536 * 65536). rewrite Z.rem_mul_r by lia.
    rewrite Z.mul_comm, Z.mod_add by lia. apply Z.mod_mod; lia. }
  destruct (Z.ltb_spec (z mod 4294967296) 2147483648); [exact Hm|].
  replace (z mod 4294967296 - 4294967296) with (z mod 4294967296 + (-65536) * 65536) by lia.
  rewrite Z.mod_add by lia. exact Hm.
Qed.

Lemma uint32_range : forall z, 0 <= uint32 z < 4294967296.
Proof. intros; unfold uint32; apply Z.mod_pos_bound; lia. Qed.
Lemma uint32_small : forall z, 0 <= z < 4294967296 -> uint32 z = z.
Proof. intros; unfold uint32; apply Z.mod_small; lia. Qed.
Lemma int32_range : forall z, int_ok (int32 z).
Proof.
  intros z. unfold int_ok, int32. pose proof (Z.mod_pos_bound z 4294967296 ltac:(lia)).
  destruct (Z.ltb_spec (z mod 4294967296) 2147483648); lia.
Qed.
Lemma int32_small : forall z, int_ok z -> int32 z = z.
Proof.
  intros z Hz. unfold int_ok in Hz. unfold int32. destruct (Z.lt_ge_cases z 0).
  - replace (z mod 4294967296) with (z + 4294967296).
    + destruct (Z.ltb_spec (z + 4294967296) 2147483648); lia.
    + apply Z.mod_unique with (-1); lia.
  - rewrite Z.mod_small by lia. destruct (Z.ltb_spec z 2147483648); lia.
Qed.

(** packing (row << 16) | (0xffff & pad) *)
Lemma pack_eq : forall r p, 0 <= p < 65536 ->
  Z.lor (Z.shiftl r 16) (Z.land 65535 p) = r * 65536 + p.
Proof.
  intros. rewrite land_65535, Z.mod_small by lia. now rewrite lor_shiftl_add by (simpl; lia).
Qed.
Lemma pack_eq_mod : forall r p,
  Z.lor (Z.shiftl r 16) (Z.land 65535 p) = r * 65536 + p mod 65536.
Proof.
  intros. rewrite land_65535. rewrite lor_shiftl_add; try (simpl; lia).
  apply Z.mod_pos_bound; lia.
Qed.
Lemma pack_row : forall r p, 0 <= r < 65536 -> 0 <= p < 65536 ->
  Z.shiftr (Z.land 4294901760 (uint32 (int32 (r * 65536 + p)))) 16 = r.
Proof.
  intros. rewrite uint32_int32, uint32_small by lia. rewrite land_hi16 by lia.
  rewrite Z.div_add_l by lia. rewrite Z.div_small by lia. lia.
Qed.
Lemma pack_pad : forall r p, 0 <= p < 65536 -> Z.land 65535 (int32 (r * 65536 + p)) = p.
Proof.
  intros. rewrite land_65535, int32_mod_65536, Z.add_comm, Z.mod_add by lia.
  apply Z.mod_small; lia.
Qed.
