(** * Property C36: relativistic kinematics *)
From Coq Require Import Floats.
From Coq Require Import ZArith Reals List Bool Lra Lia.
From Verif Require Import Num NumR NumF Structures Calculations.
Import ListNotations.
Local Open Scope R_scope.

(** the rest energy per nucleon used by the library, MeV *)
Definition u0 : R := 9314940954 / 10000000.
Lemma u0_eq : atomic_mass_unit (F:=R) = u0.
Proof. unfold atomic_mass_unit, u0. numR. dec_norm. lra. Qed.
Lemma u0_pos : 0 < u0. Proof. unfold u0. lra. Qed.

Lemma gamma_R T : gamma_from_T (F:=R) T = 1 + T / u0.
Proof. unfold gamma_from_T. rewrite u0_eq. numR. dec_norm. lra. Qed.
Lemma gamma_ge1 T : 0 <= T -> 1 <= 1 + T / u0.
Proof. intros H. assert (0 <= T / u0); [|lra]. apply Rmult_le_pos; [lra|]. left. apply Rinv_0_lt_compat, u0_pos. Qed.

Lemma beta_R T : beta_from_T (F:=R) T = sqrt (1 - 1 / ((1 + T / u0) * (1 + T / u0))).
Proof. unfold beta_from_T. rewrite gamma_R. numR. dec_norm. replace (10 / 10) with 1 by field. reflexivity. Qed.

Lemma beta2_range T : 0 <= T -> 0 <= 1 - 1 / ((1 + T / u0) * (1 + T / u0)) < 1.
Proof.
  intros H. pose proof (gamma_ge1 T H) as G. set (g := 1 + T / u0) in *.
  assert (1 <= g * g) by nra. assert (0 < / (g * g) <= 1).
  { split; [apply Rinv_0_lt_compat; lra|]. rewrite <- Rinv_1. apply Rinv_le_contravar; lra. }
  unfold Rdiv. lra.
Qed.

Lemma beta_sq T : 0 <= T -> beta_from_T (F:=R) T * beta_from_T T = 1 - 1 / ((1 + T / u0) * (1 + T / u0)).
Proof. intros H. rewrite beta_R. apply sqrt_sqrt. apply beta2_range. exact H. Qed.

Theorem C36_gamma : (forall T : R, 0 <= T -> 1 <= gamma_from_T T) /\
  (forall S T : R, S < T -> gamma_from_T S < gamma_from_T T) /\
  (forall T : R, gamma_from_T T = (T + atomic_mass_unit) / atomic_mass_unit).
Proof.
  split; [|split].
  - intros T H. rewrite gamma_R. now apply gamma_ge1.
  - intros S T H. rewrite !gamma_R. apply Rplus_lt_compat_l. apply Rmult_lt_compat_r; [|exact H].
    apply Rinv_0_lt_compat, u0_pos.
  - intros T. rewrite gamma_R, u0_eq. pose proof u0_pos. field. lra.
Qed.
Print Assumptions C36_gamma.

Theorem C36_beta :
  (forall T : R, 0 <= T -> 0 <= beta_from_T T < 1) /\
  (forall T : R, 0 < T -> 0 < beta_from_T T) /\
  (forall S T : R, 0 <= S -> S < T -> beta_from_T S < beta_from_T T) /\
  (forall T : R, 0 <= T -> beta_from_T T ^ 2 = 1 - 1 / gamma_from_T T ^ 2).
Proof.
  assert (MONO : forall S T : R, 0 <= S -> S < T -> beta_from_T S < beta_from_T (F:=R) T).
  { intros S T HS HT. rewrite !beta_R. apply sqrt_lt_1; [apply beta2_range; lra|apply beta2_range; lra|].
    pose proof (gamma_ge1 S HS) as GS. pose proof (gamma_ge1 T ltac:(lra)) as GT.
    assert (GL : 1 + S / u0 < 1 + T / u0).
    { apply Rplus_lt_compat_l. apply Rmult_lt_compat_r; [|exact HT]. apply Rinv_0_lt_compat, u0_pos. }
    set (g := 1 + S / u0) in *. set (h := 1 + T / u0) in *.
    assert (/ (h * h) < / (g * g)) by (apply Rinv_lt_contravar; [apply Rmult_lt_0_compat; nra|nra]).
    unfold Rdiv. lra. }
  split; [|split; [|split; [exact MONO|]]].
  - intros T H. pose proof (beta2_range T H). rewrite beta_R. split; [apply sqrt_pos|].
    apply Rlt_le_trans with (sqrt 1); [apply sqrt_lt_1; lra|rewrite sqrt_1; lra].
  - intros T H. pose proof (MONO 0 T ltac:(lra) H) as M. rewrite (beta_R 0) in M.
    pose proof (sqrt_pos (1 - 1 / ((1 + 0 / u0) * (1 + 0 / u0)))). lra.
  - intros T H. replace (beta_from_T T ^ 2) with (beta_from_T (F:=R) T * beta_from_T T) by ring.
    rewrite beta_sq by exact H. rewrite gamma_R. f_equal. f_equal. ring.
Qed.
Print Assumptions C36_beta.

Lemma p_sqrt T : 0 <= T -> sqrt (T * (T + 2 * u0)) = u0 * beta_from_T T * (1 + T / u0).
Proof.
  intros H. pose proof u0_pos as U. pose proof (gamma_ge1 T H) as G.
  apply sqrt_lem_1.
  - apply Rmult_le_pos; lra.
  - rewrite beta_R. apply Rmult_le_pos; [|lra]. apply Rmult_le_pos; [lra|apply sqrt_pos].
  - replace (u0 * beta_from_T T * (1 + T / u0) * (u0 * beta_from_T T * (1 + T / u0)))
      with (u0 * u0 * (beta_from_T T * beta_from_T T) * ((1 + T / u0) * (1 + T / u0))) by ring.
    rewrite beta_sq by exact H. set (g := 1 + T / u0) in *.
    replace (u0 * u0 * (1 - 1 / (g * g)) * (g * g)) with (u0 * u0 * (g * g) - u0 * u0) by (field; lra).
    unfold g. field. lra.
Qed.

(** momentum of mass number M: with energy E = M (T + u) and mass m = M u *)
Theorem C36_momentum (T M : R) : 0 <= T ->
  p_from_T T M = M * atomic_mass_unit * beta_from_T T * gamma_from_T T /\
  p_from_T T M ^ 2 = (M * (T + atomic_mass_unit)) ^ 2 - (M * atomic_mass_unit) ^ 2 /\
  (M <> 0 -> p_from_T T M / ((T + atomic_mass_unit) * M) = beta_from_T T).
Proof.
  intros H. pose proof u0_pos as U.
  assert (E : p_from_T (F:=R) T M = M * u0 * beta_from_T T * (1 + T / u0)).
  { unfold p_from_T. rewrite u0_eq. numR. replace (Rlit 2) with 2 by (dec_norm; lra). rewrite p_sqrt by exact H. ring. }
  rewrite u0_eq, E, gamma_R. split; [reflexivity|]. split.
  - replace ((M * u0 * beta_from_T T * (1 + T / u0)) ^ 2)
      with (M ^ 2 * u0 ^ 2 * (beta_from_T T * beta_from_T T) * (1 + T / u0) ^ 2) by ring.
    rewrite beta_sq by exact H. pose proof (gamma_ge1 T H).
    set (g := 1 + T / u0) in *. replace (T + u0) with (u0 * g) by (unfold g; field; lra). field. lra.
  - intros NM. field. split; lra.
Qed.
Print Assumptions C36_momentum.

(** the two definitions of catima::p_from_T agree *)
Theorem C36_two_definitions (T M : R) : p_from_T T M = p_from_T_reactions T M.
Proof. unfold p_from_T, p_from_T_reactions. numR. rewrite Rmult_comm. f_equal. f_equal. dec_norm. ring. Qed.
Print Assumptions C36_two_definitions.

(** in doubles they do not: which one runs changes the result *)
Theorem C36_two_definitions_binary64_refuted (lm : Libm) :
  exists T M : PrimFloat.float,
    PrimFloat.eqb (p_from_T (N := NumF lm) T M) (p_from_T_reactions (N := NumF lm) T M) = false.
Proof. exists 0x1.0ap7%float, 1%float. vm_compute. reflexivity. Qed.
Print Assumptions C36_two_definitions_binary64_refuted.

(** the velocity at twice the rest energy: gamma = 3, beta = sqrt 8 / 3 *)
Example C36_case : gamma_from_T (2 * u0) = 3 /\ beta_from_T (2 * u0) = sqrt 8 / 3 /\ 0 <= 2 * u0.
Proof.
  pose proof u0_pos. split; [|split; [|lra]].
  - rewrite gamma_R. field. lra.
  - rewrite beta_R. replace (1 + 2 * u0 / u0) with 3 by (field; lra).
    replace (1 - 1 / (3 * 3)) with (8 / (3 * 3)) by field. rewrite sqrt_div by lra. f_equal. apply sqrt_square. lra.
Qed.
