(** A lower bound of pi, sharp enough to compare the constants SQRT2 and INVSQRT2PI of globals.hpp with sqrt 2 and 1/sqrt(2 pi). *)
From Coq Require Import Reals Lra Lia.
Local Open Scope R_scope.
Lemma pi_lower : 3141592653589793238 / 10 ^ 18 <= PI.
Proof.
  pose proof (PI_2_3_7_ineq 9) as [H _]. 
  assert (3141592653589793238 / 10 ^ 18 <= 4 * sum_f_R0 (tg_alt PI_2_3_7_tg) (S (2 * 9))) as E.
  { cbn [sum_f_R0 Nat.mul Nat.add]. unfold tg_alt, PI_2_3_7_tg, Ratan_seq. cbn [Nat.mul Nat.add pow INR]. lra. }
  lra.
Qed.
Lemma pi_upper : PI <= 3141592653589793239 / 10 ^ 18.
Proof.
  pose proof (PI_2_3_7_ineq 9) as [_ H].
  assert (4 * sum_f_R0 (tg_alt PI_2_3_7_tg) (2 * 9) <= 3141592653589793239 / 10 ^ 18) as E.
  { cbn [sum_f_R0 Nat.mul Nat.add]. unfold tg_alt, PI_2_3_7_tg, Ratan_seq. cbn [Nat.mul Nat.add pow INR]. lra. }
  lra.
Qed.
