(** PI to thirteen digits. *)
From Coq Require Import Reals Lra Lia ZArith Machin.
Open Scope R_scope.

Lemma pi_bounds : 3141592653589 / 1000000000000 < PI < 3141592653590 / 1000000000000.
Proof.
  pose proof (PI_2_3_7_ineq 6) as [L _]. pose proof (PI_2_3_7_ineq 6) as [_ U].
  cbv [sum_f_R0 tg_alt PI_2_3_7_tg Ratan_seq Nat.mul Nat.add pow] in L, U.
  cbn [INR] in L, U. split; lra.
Qed.
