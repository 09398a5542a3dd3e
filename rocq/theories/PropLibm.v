(** * C64: the libm with which the unit tests of the model are run is accurate

    exp and log in the range used by the library, log10, log1p and pow: each result is finite and within four units in the last
    place of the real function ([tiny] = 2^-1075, half the smallest double). *)
From Flocq Require Import Core BinarySingleNaN PrimFloat.
From Coq Require Import Reals ZArith Floats SpecFloat.
From Verif Require Import Num NumF Binary64 Binary64Num LibmZ LibmZProofs.
Local Open Scope R_scope.

Theorem C64_libm :
  (forall x, fin x -> -700 <= val x <= 700 -> fin (z_exp x) /\ Rabs (val (z_exp x) - exp (val x)) <= 4 * (2 * u) * exp (val x)) /\
  (forall x, fin x -> 0 < val x -> fin (z_log x) /\ Rabs (val (z_log x) - ln (val x)) <= 4 * (2 * u) * Rabs (ln (val x)) + tiny) /\
  (forall x, fin x -> 0 < val x -> fin (z_log10 x) /\ Rabs (val (z_log10 x) - ln (val x) / ln 10) <= 4 * (2 * u) * Rabs (ln (val x) / ln 10) + tiny) /\
  (forall x, fin x -> -1 < val x -> fin (z_log1p x) /\ Rabs (val (z_log1p x) - ln (1 + val x)) <= 4 * (2 * u) * Rabs (ln (1 + val x)) + tiny) /\
  (forall x y, fin x -> fin y -> 0 < val x -> Rabs (val y * ln (val x)) <= 700 ->
     fin (z_pow x y) /\ Rabs (val (z_pow x y) - Rpower (val x) (val y)) <= 4 * (2 * u) * Rpower (val x) (val y)).
Proof. split; [exact z_exp_accurate|]. split; [exact z_log_accurate|]. split; [exact z_log10_accurate|]. split; [exact z_log1p_accurate|exact z_pow_accurate]. Qed.
Print Assumptions C64_libm.
(** what the theorems about double precision ask of a libm *)
Theorem C64_libm_accurate : accurate z_libm.
Proof. exact z_accurate. Qed.
Print Assumptions C64_libm_accurate.

Example C64_libm_values : z_exp 1 = 0x1.5bf0a8b145769p+1%float /\ z_log 2 = 0x1.62e42fefa39efp-1%float /\ z_log10 1000 = 3%float /\ z_log1p 1 = 0x1.62e42fefa39efp-1%float /\ z_pow 2 0.5 = 0x1.6a09e667f3bcdp+0%float.
Proof. vm_compute. repeat split. Qed.
