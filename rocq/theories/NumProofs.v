From Coq Require Import ZArith Reals List String Ascii Bool Lia Lra.
From Flocq Require Import Core Relative.
From Verif Require Import Base XmlModel XmlSpec XmlProofs NumModel NumSpec.
Open Scope Z_scope.

(** ** Digits *)

Lemma digit_byte : forall z, 0 <= z <= 9 -> byte (digit z) = 48 + z.
Proof.
  intros z H. unfold digit. assert (C : z = 0 \/ z = 1 \/ z = 2 \/ z = 3 \/ z = 4 \/ z = 5 \/ z = 6 \/ z = 7 \/ z = 8 \/ z = 9) by lia.
  repeat (destruct C as [->|C]; [reflexivity|]). subst. reflexivity.
Qed.

Lemma digit_isdigit : forall z, 0 <= z <= 9 -> isdigit (digit z) = true.
Proof.
  intros z H. unfold isdigit, isdigit_b. rewrite digit_byte by exact H.
  apply andb_true_iff. rewrite !Z.leb_le. lia.
Qed.

Definition nondigit_first (s : string) : Prop :=
  match s with String c _ => isdigit c = false | EmptyString => True end.

Lemma read_digits_stop : forall s acc n, nondigit_first s -> read_digits s acc n = (acc, n, s).
Proof. intros [|c t] acc n H; [reflexivity|]. cbn in *. rewrite H. reflexivity. Qed.

Lemma read_digits_dec : forall k z s acc n, 0 <= z ->
  read_digits (dec k z +++ s) acc n =
  read_digits s (acc * 10 ^ Z.of_nat k + z mod 10 ^ Z.of_nat k) (n + k).
Proof.
  induction k; intros z s acc n Z0.
  - cbn [dec String.append]. f_equal; [|lia]. change (10 ^ Z.of_nat 0) with 1. rewrite Z.mod_1_r. lia.
  - cbn [dec]. rewrite sapp_assoc. rewrite IHk by (apply Z.div_pos; lia).
    cbn [String.append read_digits].
    assert (M := Z.mod_pos_bound z 10 ltac:(lia)).
    rewrite digit_isdigit by lia. rewrite digit_byte by lia.
    f_equal; [|lia].
    replace (Z.of_nat (S k)) with (Z.succ (Z.of_nat k)) by lia.
    rewrite Z.pow_succ_r by lia.
    rewrite Z.rem_mul_r by (try lia; apply Z.pow_nonzero; lia).
    ring.
Qed.

Lemma dec_length : forall k z, String.length (dec k z) = k.
Proof. induction k; intros z; cbn; [reflexivity|]. rewrite slen_app, IHk. cbn. lia. Qed.

Lemma dec_head : forall k z, 0 <= z -> exists c t, dec (S k) z = String c t /\ isdigit c = true.
Proof.
  induction k; intros z H.
  - exists (digit (z mod 10)), ""%string. split; [reflexivity|]. apply digit_isdigit.
    pose proof (Z.mod_pos_bound z 10 ltac:(lia)). lia.
  - destruct (IHk (z / 10)) as [c [t [E D]]]; [apply Z.div_pos; lia|].
    exists c, (t +++ String (digit (z mod 10)) ""). split; [|exact D].
    cbn [dec] in *. rewrite E. reflexivity.
Qed.

Lemma ndigits_pos : forall n z, (1 <= ndigits n z)%nat.
Proof. intros [|n] z; cbn; [lia|]. destruct (z <? 10); lia. Qed.

Lemma ndigits_bound : forall n z, 0 <= z -> Z.log2 z <= Z.of_nat n -> z < 10 ^ Z.of_nat (ndigits n z).
Proof.
  induction n; intros z Z0 L.
  - cbn [ndigits]. change (10 ^ Z.of_nat 1) with 10. destruct (Z.eq_dec z 0) as [->|NZ]; [lia|].
    pose proof (Z.log2_spec z ltac:(lia)) as S. replace (Z.log2 z) with 0 in S by (pose proof (Z.log2_nonneg z); lia).
    cbn in S. lia.
  - cbn [ndigits]. destruct (Z.ltb_spec z 10).
    + change (10 ^ Z.of_nat 1) with 10. lia.
    + assert (H1 : z / 10 < 10 ^ Z.of_nat (ndigits n (z / 10))).
      { apply IHn; [apply Z.div_pos; lia|].
        assert (Z.log2 (z / 10) < Z.log2 z); [|lia].
        assert (Q : z / 10 <= z / 2) by (apply Z.div_le_compat_l; lia).
        apply Z.le_lt_trans with (Z.log2 (z / 2)); [apply Z.log2_le_mono; exact Q|].
        replace (z / 2) with (Z.div2 z) by (apply Z.div2_div).
        assert (LD : Z.log2 (Z.div2 z) = Z.log2 z - 1).
        { rewrite Z.div2_spec, Z.log2_shiftr by lia. pose proof (Z.log2_le_mono 2 z ltac:(lia)). change (Z.log2 2) with 1 in *. lia. }
        lia. }
      rewrite Nat2Z.inj_succ, Z.pow_succ_r by lia.
      pose proof (Z.div_mod z 10 ltac:(lia)). pose proof (Z.mod_pos_bound z 10 ltac:(lia)). lia.
Qed.

Lemma print_uint_read : forall z s acc n, 0 <= z -> nondigit_first s ->
  exists k, (1 <= k)%nat /\ read_digits (print_uint z +++ s) acc n = (acc * 10 ^ Z.of_nat k + z, (n + k)%nat, s).
Proof.
  intros z s acc n Z0 S. unfold print_uint. set (k := ndigits (Z.to_nat (Z.log2 z)) z).
  exists k. split; [apply ndigits_pos|]. rewrite read_digits_dec by exact Z0.
  rewrite read_digits_stop by exact S. rewrite Z.mod_small; [reflexivity|].
  split; [exact Z0|]. apply ndigits_bound; [exact Z0|].
  rewrite Z2Nat.id by apply Z.log2_nonneg. lia.
Qed.

Lemma print_uint_head : forall z, 0 <= z -> exists c t, print_uint z = String c t /\ isdigit c = true.
Proof.
  intros z H. unfold print_uint. pose proof (ndigits_pos (Z.to_nat (Z.log2 z)) z).
  destruct (ndigits (Z.to_nat (Z.log2 z)) z) as [|k]; [lia|]. apply dec_head. exact H.
Qed.

Lemma isdigit_plain : forall c, isdigit c = true ->
  IsWhiteSpace c = false /\ ceqb c "-" = false /\ ceqb c "+" = false.
Proof. intros c H. destruct c as [[] [] [] [] [] [] [] []]; try discriminate; repeat split; reflexivity. Qed.

(** ** C33: integers *)

Lemma int_kept : forall z, is_int z -> atoi (print_int z) = Ok z.
Proof.
  intros z [L U]. unfold atoi, print_int. destruct (Z.ltb_spec z 0).
  - change (skip_ws (String "-" (print_uint (- z)))) with (String "-" (print_uint (- z))).
    cbn [read_sign]. change (ceqb "-" "-") with true. cbv iota.
    destruct (print_uint_read (- z) "" 0 0) as [k [_ K]]; [lia | exact I|].
    rewrite sapp_nil_r in K. rewrite K.
    replace (- (0 * 10 ^ Z.of_nat k + - z)) with z by ring.
    replace ((-2147483648 <=? z) && (z <=? 2147483647)) with true; [reflexivity|].
    symmetry. apply andb_true_iff. rewrite !Z.leb_le. lia.
  - destruct (print_uint_head z H) as [c [t [E D]]]. destruct (isdigit_plain c D) as [W [M P]].
    assert (S : skip_ws (print_uint z) = print_uint z) by (rewrite E; cbn [skip_ws]; rewrite W; reflexivity).
    rewrite S. assert (RS : read_sign (print_uint z) = (false, print_uint z)) by (rewrite E; cbn [read_sign]; rewrite M, P; reflexivity).
    rewrite RS.
    destruct (print_uint_read z "" 0 0) as [k [_ K]]; [lia | exact I|].
    rewrite sapp_nil_r in K. rewrite K.
    replace (0 * 10 ^ Z.of_nat k + z) with z by ring.
    replace ((-2147483648 <=? z) && (z <=? 2147483647)) with true; [reflexivity|].
    symmetry. apply andb_true_iff. rewrite !Z.leb_le. lia.
Qed.

(** ** C33: doubles *)

Lemma read_exp_print : forall e, read_exp ("e" +++ print_exp e) = e.
Proof.
  intros e. unfold read_exp, print_exp. cbn [String.append].
  change (ceqb "e" "e" || ceqb "e" "E") with true. cbv iota.
  assert (Q : forall b : bool, read_sign (String (if b then "-"%char else "+"%char) (if Z.abs e <? 10 then dec 2 (Z.abs e) else print_uint (Z.abs e)))
              = (b, if Z.abs e <? 10 then dec 2 (Z.abs e) else print_uint (Z.abs e))).
  { intros [|]; reflexivity. }
  rewrite Q. clear Q.
  assert (V : exists k, read_digits (if Z.abs e <? 10 then dec 2 (Z.abs e) else print_uint (Z.abs e)) 0 0 = (Z.abs e, k, ""%string)).
  { destruct (Z.ltb_spec (Z.abs e) 10).
    - exists 2%nat. rewrite <- (sapp_nil_r (dec 2 (Z.abs e))). rewrite read_digits_dec by lia. cbn [read_digits].
      rewrite Z.mod_small by (change (10 ^ Z.of_nat 2) with 100; lia). reflexivity.
    - destruct (print_uint_read (Z.abs e) "" 0 0) as [k [_ K]]; [lia | exact I|].
      rewrite sapp_nil_r in K. exists k. rewrite K. reflexivity. }
  destruct V as [k V]. rewrite V. destruct (Z.ltb_spec e 0); lia.
Qed.

Lemma read_sci_gen : forall (neg : bool) m e, 0 <= m < 10 ^ 10 ->
  read_decimal ((if neg then "-"%string else ""%string) +++ print_sci m e) = ((if neg then - m else m), e).
Proof.
  intros neg m e M. unfold read_decimal.
  set (T := print_sci m e).
  assert (D0 : 0 <= m / 1000000000 <= 9).
  { split; [apply Z.div_pos; lia|]. apply Z.lt_succ_r. apply Z.div_lt_upper_bound; [lia|]. change (10 ^ 10) with 10000000000 in M. lia. }
  assert (ET : exists t, T = String (digit (m / 1000000000 mod 10)) t) by (unfold T, print_sci; cbn [dec String.append]; eauto).
  assert (DD : isdigit (digit (m / 1000000000 mod 10)) = true).
  { apply digit_isdigit. pose proof (Z.mod_pos_bound (m / 1000000000) 10 ltac:(lia)). lia. }
  destruct (isdigit_plain _ DD) as [W [P1 P2]].
  assert (RS : read_sign (skip_ws ((if neg then "-"%string else ""%string) +++ T)) = (neg, T)).
  { destruct ET as [t ->]. destruct neg.
    - reflexivity.
    - cbn [String.append skip_ws]. rewrite W. cbn [read_sign]. rewrite P1, P2. reflexivity. }
  rewrite RS.
  assert (R1 : read_digits T 0 0 = (m / 1000000000, 1%nat, "." +++ dec 9 m +++ "e" +++ print_exp (e + 9))).
  { unfold T, print_sci. rewrite read_digits_dec by lia. rewrite read_digits_stop by reflexivity.
    change (10 ^ Z.of_nat 1) with 10. rewrite Z.mod_small by lia. f_equal; f_equal; lia. }
  rewrite R1. cbn [String.append]. change (ceqb "." ".") with true. cbv iota.
  rewrite read_digits_dec by lia. rewrite read_digits_stop by reflexivity.
  change (Nat.eqb (1 + (0 + 9)) 0) with false. cbv iota.
  change (String "e" (print_exp (e + 9))) with ("e" +++ print_exp (e + 9)). rewrite read_exp_print.
  change (10 ^ Z.of_nat 9) with 1000000000.
  assert (DM := Z.div_mod m 1000000000 ltac:(lia)).
  assert (E1 : m / 1000000000 * 1000000000 + m mod 1000000000 = m) by lia.
  rewrite E1. f_equal. lia.
Qed.

Open Scope R_scope.

Notation F10 := (FLX_exp 10).
Notation F2 := (FLT_exp (-1074) 53).

Local Instance prec10 : Prec_gt_0 10. Proof. reflexivity. Qed.
Local Instance prec53 : Prec_gt_0 53. Proof. reflexivity. Qed.
Local Instance valid10 : Valid_exp F10. Proof. apply FLX_exp_valid. exact prec10. Qed.
Local Instance valid2 : Valid_exp F2. Proof. apply FLT_exp_valid. exact prec53. Qed.

Lemma ten_digits_format : forall x, generic_format radix10 F10 (ten_digits x).
Proof. intros x. apply generic_format_round; apply _. Qed.

Lemma atof_print : forall x, atof (print_double x) = to_double (ten_digits x).
Proof.
  intros x. unfold print_double.
  set (r := ten_digits x). set (m := Ztrunc (scaled_mantissa radix10 F10 r)). set (e := cexp radix10 F10 r).
  assert (FR : r = F2R (Float radix10 m e)) by (apply (ten_digits_format x)).
  destruct (Z.eqb_spec m 0) as [M0|M0].
  - assert (R0 : r = 0) by (rewrite FR, M0; apply F2R_0). rewrite R0.
    unfold atof. change (read_decimal "0.000000000e+00") with (0%Z, (-9)%Z). cbv iota. rewrite F2R_0. reflexivity.
  - assert (BM : (Z.abs m < 10 ^ 10)%Z).
    { assert (LT : Rabs (scaled_mantissa radix10 F10 r) < bpow radix10 (mag radix10 r - cexp radix10 F10 r)).
      { apply scaled_mantissa_lt_bpow. }
      rewrite scaled_mantissa_generic in LT by apply ten_digits_format. fold m in LT.
      unfold cexp, FLX_exp in LT. replace (mag radix10 r - (mag radix10 r - 10))%Z with 10%Z in LT by ring.
      rewrite <- abs_IZR in LT. change (bpow radix10 10) with (IZR (10 ^ 10)) in LT. apply lt_IZR in LT. exact LT. }
    unfold atof.
    assert (RD : read_decimal ((if (m <? 0)%Z then "-" else "") +++ print_sci (Z.abs m) e) =
                 ((if (m <? 0)%Z then - Z.abs m else Z.abs m)%Z, e)).
    { apply read_sci_gen. lia. }
    rewrite RD. replace (if (m <? 0)%Z then (- Z.abs m)%Z else Z.abs m) with m by (destruct (Z.ltb_spec m 0); lia).
    rewrite <- FR. reflexivity.
Qed.

Lemma p10 : forall e, bpow radix10 e = powerRZ 10 e.
Proof. intros e. apply (bpow_powerRZ radix10). Qed.
Lemma p2 : forall e, bpow radix2 e = powerRZ 2 e.
Proof. intros e. apply (bpow_powerRZ radix2). Qed.

Lemma double_format : forall x, is_double x <-> generic_format radix2 F2 x.
Proof.
  intros x. split.
  - intros [m [e [E [M L]]]]. apply generic_format_FLT. exists (Float radix2 m e).
    + rewrite E, <- p2. reflexivity.
    + exact M.
    + exact L.
  - intros G. destruct (FLT_format_generic radix2 (-1074) 53 x G) as [[m e] E M L].
    exists m, e. cbn in M, L. split; [|split; assumption]. rewrite E. unfold F2R. cbn. rewrite p2. reflexivity.
Qed.

Lemma ten_format : forall x, ten_digit_number x <-> generic_format radix10 F10 x.
Proof.
  intros x. split.
  - intros [m [e [E M]]]. apply generic_format_FLX. exists (Float radix10 m e).
    + rewrite E, <- p10. reflexivity.
    + exact M.
  - intros G. destruct (FLX_format_generic radix10 10 x G) as [[m e] E M].
    exists m, e. cbn in M. split; [|assumption]. rewrite E. unfold F2R. cbn. rewrite p10. reflexivity.
Qed.

Lemma to_double_nearest : forall d, nearest_double d (to_double d).
Proof.
  intros d. split.
  - apply double_format. apply generic_format_round; apply _.
  - intros y Y. apply double_format in Y. destruct (round_N_pt radix2 F2 (fun x => negb (Z.even x)) d) as [_ N].
    apply N. exact Y.
Qed.

Lemma ten_digits_close : forall x, Rabs (ten_digits x - x) <= 5 / 10000000000 * Rabs x.
Proof.
  intros x. pose proof (relative_error_N_FLX radix10 10 prec10 (fun x => negb (Z.even x)) x) as H.
  change (bpow radix10 (- (10) + 1)) with (/ IZR (10 ^ 9)) in H.
  eapply Rle_trans; [exact H|]. apply Rmult_le_compat_r; [apply Rabs_pos|].
  change (IZR (10 ^ 9)) with 1000000000. lra.
Qed.

Lemma pow2_pos : forall e, 0 < powerRZ 2 e.
Proof. intros e. apply powerRZ_lt. lra. Qed.

Lemma to_double_close : forall d, powerRZ 2 (-1022) <= Rabs d -> Rabs (to_double d - d) <= / 9007199254740992 * Rabs d.
Proof.
  intros d H. pose proof (relative_error_N_FLT radix2 (-1074) 53 prec53 (fun x => negb (Z.even x)) d) as R.
  rewrite p2 in R. change (-1074 + 53 - 1)%Z with (-1022)%Z in R. specialize (R H).
  change (bpow radix2 (- (53) + 1)) with (/ IZR (2 ^ 52)) in R.
  eapply Rle_trans; [exact R|]. apply Rmult_le_compat_r; [apply Rabs_pos|].
  change (IZR (2 ^ 52)) with 4503599627370496. lra.
Qed.

Lemma ten_digits_zero : ten_digits 0 = 0.
Proof. unfold ten_digits. apply round_0. apply _. Qed.
Lemma to_double_zero : to_double 0 = 0.
Proof. unfold to_double. apply round_0. apply _. Qed.

Lemma normal_ten_digits : forall x, normal x -> x <> 0 -> powerRZ 2 (-1001) <= Rabs (ten_digits x).
Proof.
  intros x [Z|[L U]] NZ; [contradiction|].
  pose proof (ten_digits_close x) as C.
  assert (A : Rabs x - Rabs (ten_digits x - x) <= Rabs (ten_digits x)).
  { pose proof (Rabs_triang (ten_digits x) (- (ten_digits x - x))). rewrite Rabs_Ropp in H.
    replace (ten_digits x + - (ten_digits x - x)) with x in H by ring. lra. }
  replace (-1000)%Z with (1 + -1001)%Z in L by reflexivity. rewrite powerRZ_add in L by lra.
  pose proof (pow2_pos (-1001)). change (powerRZ 2 1) with (2 * 1) in L.
  generalize dependent (powerRZ 2 (-1001)). intros p L P. lra.
Qed.

Lemma pow2_le : forall a b, (a <= b)%Z -> powerRZ 2 a <= powerRZ 2 b.
Proof. intros a b H. rewrite <- !p2. apply bpow_le. exact H. Qed.

Lemma double_close : forall x, normal x -> Rabs (atof (print_double x) - x) <= 5001 / 10000000000000 * Rabs x.
Proof.
  intros x N. rewrite atof_print. destruct (Req_dec x 0) as [->|NZ].
  - rewrite ten_digits_zero, to_double_zero. rewrite Rminus_0_r, Rabs_R0. lra.
  - pose proof (normal_ten_digits x N NZ) as L.
    assert (L2 : powerRZ 2 (-1022) <= Rabs (ten_digits x)).
    { eapply Rle_trans; [|exact L]. apply pow2_le. lia. }
    pose proof (to_double_close _ L2) as C2. pose proof (ten_digits_close x) as C1.
    set (d := ten_digits x) in *. set (y := to_double d) in *.
    pose proof (Rabs_triang (y - d) (d - x)) as T. replace (y - d + (d - x)) with (y - x) in T by ring.
    pose proof (Rabs_triang (d - x) x) as T2. replace (d - x + x) with d in T2 by ring.
    pose proof (Rabs_pos x). pose proof (Rabs_pos d).
    assert (S : / 9007199254740992 <= / 1000000000000000) by lra.
    assert (/ 9007199254740992 * Rabs d <= / 1000000000000000 * Rabs d) by (apply Rmult_le_compat_r; assumption).
    lra.
Qed.

(** two ten-digit numbers cannot be that close *)
Lemma ten_digit_apart : forall d g, generic_format radix10 F10 d -> generic_format radix10 F10 g ->
  Rabs (g - d) <= / 1000000000000 * Rabs d -> g = d.
Proof.
  intros d g Fd Fg C. destruct (Req_dec d 0) as [->|ND].
  { rewrite Rabs_R0, Rmult_0_r, Rminus_0_r in C. pose proof (Rabs_pos g).
    destruct (Req_dec g 0) as [|NG]; [assumption|]. pose proof (Rabs_pos_lt g NG). lra. }
  pose proof (Rabs_pos_lt d ND) as PD.
  assert (HG : Rabs d / 2 <= Rabs g).
  { pose proof (Rabs_triang g (- (g - d))). rewrite Rabs_Ropp in H. replace (g + - (g - d)) with d in H by ring.
    assert (/ 1000000000000 * Rabs d <= / 2 * Rabs d) by (apply Rmult_le_compat_r; lra). lra. }
  assert (MD : (mag radix10 d - 1 <= mag radix10 g)%Z).
  { apply mag_ge_bpow. eapply Rle_trans; [|exact HG].
    pose proof (bpow_mag_le radix10 d ND) as B.
    replace (mag radix10 d - 1 - 1)%Z with (-1 + (mag radix10 d - 1))%Z by ring. rewrite bpow_plus.
    change (bpow radix10 (-1)) with (/ 10). pose proof (bpow_gt_0 radix10 (mag radix10 d - 1)). lra. }
  set (E := (mag radix10 d - 11)%Z).
  assert (I : forall v, generic_format radix10 F10 v -> (E <= cexp radix10 F10 v)%Z -> exists k : Z, v = IZR k * bpow radix10 E).
  { intros v G L. exists (Ztrunc (scaled_mantissa radix10 F10 v) * Zpower 10 (cexp radix10 F10 v - E))%Z.
    rewrite G at 1. unfold F2R. cbn. rewrite mult_IZR.
    change (10 ^ (cexp radix10 F10 v - E))%Z with (Zpower radix10 (cexp radix10 F10 v - E)).
    rewrite (IZR_Zpower radix10) by (unfold cexp, FLX_exp in *; lia).
    rewrite Rmult_assoc, <- bpow_plus. f_equal. f_equal. ring. }
  destruct (I d Fd) as [k K]; [unfold cexp, FLX_exp, E; lia|].
  destruct (I g Fg) as [j J]; [unfold cexp, FLX_exp, E; lia|].
  pose proof (bpow_mag_gt radix10 d) as LT.
  replace (mag radix10 d : Z) with (11 + E)%Z in LT by (unfold E; ring). rewrite bpow_plus in LT.
  change (bpow radix10 11) with (IZR (10 ^ 11)) in LT.
  pose proof (bpow_gt_0 radix10 E) as PE. set (b := bpow radix10 E) in *.
  assert (Q : Rabs (g - d) = IZR (Z.abs (j - k)) * b).
  { rewrite J, K, <- Rmult_minus_distr_r, Rabs_mult, <- minus_IZR, <- abs_IZR. f_equal. apply Rabs_pos_eq. lra. }
  rewrite Q in C.
  assert (S : IZR (Z.abs (j - k)) * b < 1 * b).
  { eapply Rle_lt_trans; [exact C|]. apply Rlt_le_trans with (/ 1000000000000 * (IZR (10 ^ 11) * b)).
    - apply Rmult_lt_compat_l; [lra|exact LT].
    - rewrite <- Rmult_assoc. apply Rmult_le_compat_r; [lra|]. change (10 ^ 11)%Z with 100000000000%Z. lra. }
  apply Rmult_lt_reg_r in S; [|exact PE]. apply lt_IZR in S.
  rewrite J, K. f_equal. f_equal. lia.
Qed.

Lemma ten_digits_stable : forall d y, generic_format radix10 F10 d ->
  Rabs (y - d) <= / 2000000000000 * Rabs d -> ten_digits y = d.
Proof.
  intros d y Fd C. apply ten_digit_apart; [exact Fd | apply ten_digits_format|].
  destruct (round_N_pt radix10 F10 (fun x => negb (Z.even x)) y) as [_ N].
  specialize (N d Fd). fold (ten_digits y) in N.
  pose proof (Rabs_triang (ten_digits y - y) (y - d)) as T. replace (ten_digits y - y + (y - d)) with (ten_digits y - d) in T by ring.
  change (round radix10 F10 ZnearestE y) with (ten_digits y) in N.
  rewrite (Rabs_minus_sym d y) in N. lra.
Qed.

Lemma close_enough : forall y d, Rabs (y - d) <= / 9007199254740992 * Rabs d -> Rabs (y - d) <= / 2000000000000 * Rabs d.
Proof. intros y d H. pose proof (Rabs_pos d). lra. Qed.

Lemma ten_digits_again : forall x, normal x -> ten_digits (to_double (ten_digits x)) = ten_digits x.
Proof.
  intros x N. destruct (Req_dec x 0) as [->|NZ].
  - rewrite ten_digits_zero, to_double_zero. apply ten_digits_zero.
  - apply ten_digits_stable; [apply ten_digits_format|]. apply close_enough. apply to_double_close.
    eapply Rle_trans; [|apply normal_ten_digits; eassumption]. apply pow2_le. lia.
Qed.

Lemma text_stable : forall x, normal x -> print_double (atof (print_double x)) = print_double x.
Proof.
  intros x N. rewrite atof_print. unfold print_double at 1. rewrite ten_digits_again by exact N. reflexivity.
Qed.

Lemma double_stable : forall x, normal x ->
  atof (print_double (atof (print_double x))) = atof (print_double x).
Proof. intros x N. rewrite text_stable by exact N. reflexivity. Qed.

Lemma kept_nearest : forall x, atof (print_double x) = x ->
  exists d, ten_digit_number d /\ nearest_double d x.
Proof.
  intros x K. rewrite atof_print in K. exists (ten_digits x). split.
  - apply ten_format. apply ten_digits_format.
  - rewrite <- K at 2. apply to_double_nearest.
Qed.

Lemma nearest_kept : forall d x, ten_digit_number d -> normal d -> nearest_double d x ->
  (forall y, nearest_double d y -> y = x) -> atof (print_double x) = x.
Proof.
  intros d x T N NX U. assert (E : to_double d = x) by (apply U; apply to_double_nearest).
  rewrite atof_print. rewrite <- E at 2. f_equal. apply ten_format in T.
  destruct (Req_dec d 0) as [->|NZ].
  - rewrite <- E, to_double_zero. apply ten_digits_zero.
  - apply ten_digits_stable; [exact T|]. rewrite <- E. apply close_enough. apply to_double_close.
    destruct N as [|[L _]]; [contradiction|]. eapply Rle_trans; [|exact L]. apply pow2_le. lia.
Qed.

(** every whole number of at most ten digits comes back *)
Lemma whole_kept : forall z : Z, (Z.abs z < 10 ^ 10)%Z -> atof (print_double (IZR z)) = IZR z.
Proof.
  intros z H. rewrite atof_print.
  assert (T : generic_format radix10 F10 (IZR z)).
  { apply ten_format. exists z, 0%Z. split; [cbn; ring | exact H]. }
  assert (T1 : ten_digits (IZR z) = IZR z) by (apply round_generic; [apply _ | exact T]).
  rewrite T1. apply round_generic; [apply _|]. apply double_format.
  exists z, 0%Z. split; [cbn; ring|]. split; [|lia]. eapply Z.lt_trans; [exact H|]. reflexivity.
Qed.

(** most doubles do not *)
Lemma lossy : exists x, is_double x /\ normal x /\ atof (print_double x) <> x.
Proof.
  exists (1 + / 4503599627370496).
  assert (T : ten_digits (1 + / 4503599627370496) = 1).
  { apply ten_digits_stable.
    - apply ten_format. exists 1%Z, 0%Z. split; [cbn; ring | reflexivity].
    - rewrite Rabs_R1. rewrite Rabs_pos_eq; lra. }
  split; [|split].
  - exists 4503599627370497%Z, (-52)%Z. split; [|split; [reflexivity | lia]].
    change (powerRZ 2 (-52)) with (/ 2 ^ 52). replace (2 ^ 52) with 4503599627370496 by ring. lra.
  - right. rewrite Rabs_pos_eq by lra. split.
    + apply Rle_trans with (powerRZ 2 0); [apply pow2_le; lia | change (powerRZ 2 0) with 1; lra].
    + apply Rle_trans with (powerRZ 2 1); [change (powerRZ 2 1) with (2 * 1); lra | apply pow2_le; lia].
  - rewrite atof_print, T. unfold to_double; rewrite round_generic.
    + lra.
    + apply _.
    + apply double_format. exists 1%Z, 0%Z. split; [cbn; ring|]. split; [reflexivity | lia].
Qed.

(** the largest doubles come back larger than any double *)
Lemma largest_overflows : exists x, is_double x /\ x < powerRZ 2 1024 /\ powerRZ 2 1024 <= atof (print_double x).
Proof.
  exists (IZR (2 ^ 53 - 1) * powerRZ 2 971).
  set (x := IZR (2 ^ 53 - 1) * powerRZ 2 971).
  assert (PX : x = IZR ((2 ^ 53 - 1) * 2 ^ 971)).
  { unfold x. rewrite mult_IZR. f_equal. change 971%Z with (Z.of_nat 971). rewrite <- pow_powerRZ. rewrite <- pow_IZR. reflexivity. }
  assert (P2 : powerRZ 2 1024 = IZR (2 ^ 1024)).
  { change 1024%Z with (Z.of_nat 1024). rewrite <- pow_powerRZ. rewrite <- pow_IZR. reflexivity. }
  set (dz := (1797693135 * 10 ^ 299)%Z).
  assert (T : ten_digits x = IZR dz).
  { assert (P : forall n, (0 <= n)%Z -> powerRZ 10 n = IZR (10 ^ n)).
    { intros n N. rewrite <- p10. symmetry. apply (IZR_Zpower radix10). exact N. }
    assert (M : mag radix10 x = 309%Z :> Z).
    { apply mag_unique. rewrite !p10. rewrite !P by lia. rewrite PX, <- abs_IZR. split.
      - apply IZR_le. apply Z.leb_le. vm_compute. reflexivity.
      - apply IZR_lt. apply Z.ltb_lt. vm_compute. reflexivity. }
    assert (C : cexp radix10 F10 x = 299%Z) by (unfold cexp, FLX_exp; rewrite M; reflexivity).
    assert (N : ZnearestE (scaled_mantissa radix10 F10 x) = 1797693135%Z).
    { apply Znearest_imp. unfold scaled_mantissa. rewrite C. rewrite p10.
      assert (Q : powerRZ 10 (- (299)) = / IZR (10 ^ 299)).
      { rewrite powerRZ_neg'. rewrite P by lia. reflexivity. }
      rewrite Q, PX.
      assert (PP : 0 < IZR (10 ^ 299)) by (apply IZR_lt; apply Z.ltb_lt; vm_compute; reflexivity).
      apply Rmult_lt_reg_r with (2 * IZR (10 ^ 299)); [lra|].
      replace (/ 2 * (2 * IZR (10 ^ 299))) with (IZR (10 ^ 299)) by field.
      rewrite <- (Rabs_pos_eq (2 * IZR (10 ^ 299))) by lra. rewrite <- Rabs_mult.
      set (a := IZR ((2 ^ 53 - 1) * 2 ^ 971)) in *. set (b := IZR (10 ^ 299)) in *.
      replace ((a * / b - 1797693135) * (2 * b)) with (2 * a - 2 * 1797693135 * b) by (field; lra).
      unfold a, b. rewrite <- !mult_IZR, <- minus_IZR, <- abs_IZR. apply IZR_lt. apply Z.ltb_lt. vm_compute. reflexivity. }
    unfold ten_digits, round. rewrite N, C. unfold F2R. cbn [Fnum Fexp]. rewrite p10, P by lia.
    rewrite <- mult_IZR. reflexivity. }
  split; [|split].
  - exists (2 ^ 53 - 1)%Z, 971%Z. split; [reflexivity|]. split; [reflexivity | lia].
  - rewrite PX, P2. apply IZR_lt. apply Z.ltb_lt. vm_compute. reflexivity.
  - rewrite atof_print, T. unfold to_double. apply round_ge_generic; try apply _.
    + apply double_format. exists 1%Z, 1024%Z. split; [ring|]. split; [reflexivity | lia].
    + rewrite P2. apply IZR_le. apply Z.leb_le. vm_compute. reflexivity.
Qed.
