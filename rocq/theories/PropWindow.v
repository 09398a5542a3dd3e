(** * C25, C38, C53: no double lies in the window below the end of the energy tables

    In exact arithmetic the last 2.3e-15 MeV/u below the end of the tables read past the last row. The end of
    the tables is exp(7 LN10), slightly below 10^7 because LN10 is written with 30 digits, so the window lies
    between two neighbouring doubles and no energy given as a double is in it. *)
From Coq Require Import ZArith Reals List Bool Lra Lia.
From Verif Require Import Num NumR Structures EnergyTable Calculations Integrator Storage Reactions Catima SpecData DataProofs GridProofs BoundsProofs
  CacheFresh PropMaterial LnBounds PropSrim PropDedx PropStrag PropBethe Cases TotalProofs ApiTotal PropSafe BetheProofs.
Import ListNotations.
Local Open Scope R_scope.

(** the numbers of the format: 53-bit significand, any exponent (this includes all doubles) *)
Definition is_double (x : R) : Prop := exists m e : Z, (Z.abs m < 2 ^ 53)%Z /\ x = IZR m * powerRZ 2 e.

(** partial sums of the series of the logarithm at 1/b, times 10^40, rounded down term by term *)
Fixpoint low (b : Z) (n : nat) : Z :=
  match n with O => 0 | S m => low b m + 2 * 10 ^ 40 / (b ^ Z.of_nat (2 * m + 1) * Z.of_nat (2 * m + 1)) end%Z.
Lemma low_ok b n : (1 < b)%Z -> IZR (low b n) <= ser n (1 / IZR b) * 10 ^ 40 <= IZR (low b n) + INR n.
Proof.
  intros B. assert (BP : 0 < IZR b) by (apply (IZR_lt 0); lia). induction n as [|m IH]; [cbn [low ser INR]; lra|].
  cbn [low ser]. rewrite plus_IZR, S_INR. set (d := (b ^ Z.of_nat (2 * m + 1) * Z.of_nat (2 * m + 1))%Z).
  assert (D : (0 < d)%Z) by (unfold d; apply Z.mul_pos_pos; [apply Z.pow_pos_nonneg|]; lia).
  pose proof (div_le (2 * 10 ^ 40) d D) as Q.
  assert (E : 2 * (1 / IZR b) ^ (2 * m + 1) / (2 * INR m + 1) * 10 ^ 40 = IZR (2 * 10 ^ 40) / IZR d).
  { unfold d. rewrite mult_IZR, (mult_IZR (_ ^ _)), <- pow_IZR, <- INR_IZR_INZ, plus_INR, mult_INR. replace (INR 2) with 2 by (cbn; lra). replace (INR 1) with 1 by (cbn; lra).
    change (10 ^ 40)%Z with (10 ^ Z.of_nat 40)%Z. rewrite <- pow_IZR. assert (0 <= INR m) by apply pos_INR.
    replace ((1 / IZR b) ^ (2 * m + 1)) with (/ IZR b ^ (2 * m + 1)) by (unfold Rdiv; rewrite Rmult_1_l, pow_inv; reflexivity).
    field. split; [lra|apply pow_nonzero; lra]. }
  rewrite Rmult_plus_distr_r, E. lra.
Qed.

(** ln 10 to 36 digits *)
Lemma ln10_split : ln 10 = 3 * ln 2 + ln (5 / 4).
Proof. replace 10 with (2 * (2 * (2 * (5 / 4)))) by lra. rewrite !ln_mult by lra. ring. Qed.
Lemma ln10_bounds : 2302585092994045684017991454684364207 / 10 ^ 36 <= ln 10 <= 2302585092994045684017991454684364208 / 10 ^ 36.
Proof.
  pose proof (ln_series 40 (1 / 3) ltac:(lra)) as A. pose proof (ln_series 20 (1 / 9) ltac:(lra)) as B.
  replace ((1 + 1 / 3) / (1 - 1 / 3)) with 2 in A by lra. replace ((1 + 1 / 9) / (1 - 1 / 9)) with (5 / 4) in B by lra.
  pose proof (low_ok 3 40 ltac:(lia)) as LA. pose proof (low_ok 9 20 ltac:(lia)) as LB.
  rewrite ln10_split. set (sa := ser 40 (1 / 3)) in *. set (sb := ser 20 (1 / 9)) in *. clearbody sa sb.
  set (a := low 3 40) in *. vm_compute in a. set (b := low 9 20) in *. vm_compute in b. unfold a in LA. unfold b in LB. clear a b.
  assert (PA : 9 / 4 * (1 / 3) ^ (2 * 40 + 1) <= 1 / 10 ^ 38).
  { change (2 * 40 + 1)%nat with 81%nat. replace ((1 / 3) ^ 81) with (/ IZR (3 ^ Z.of_nat 81)) by (unfold Rdiv; rewrite Rmult_1_l, pow_inv, pow_IZR; reflexivity).
    let k := eval vm_compute in (3 ^ Z.of_nat 81)%Z in change (3 ^ Z.of_nat 81)%Z with k. lra. }
  assert (PB : 9 / 4 * (1 / 9) ^ (2 * 20 + 1) <= 1 / 10 ^ 38).
  { change (2 * 20 + 1)%nat with 41%nat. replace ((1 / 9) ^ 41) with (/ IZR (9 ^ Z.of_nat 41)) by (unfold Rdiv; rewrite Rmult_1_l, pow_inv, pow_IZR; reflexivity).
    let k := eval vm_compute in (9 ^ Z.of_nat 41)%Z in change (9 ^ Z.of_nat 41)%Z with k. lra. }
  replace (INR 40) with 40 in LA by (cbn; lra). replace (INR 20) with 20 in LB by (cbn; lra).
  generalize dependent (ln 2). generalize dependent (ln (5 / 4)). intros y B x A. lra.
Qed.

(** the end of the tables *)
Lemma end_bounds : 10000000 - 1 / 10 ^ 15 < exp (LN10_ * 7) < 10000000.
Proof.
  pose proof ln10_bounds as B. assert (E7 : exp (ln 10 * 7) = 10000000).
  { replace (ln 10 * 7) with (ln 10 + (ln 10 + (ln 10 + (ln 10 + (ln 10 + (ln 10 + ln 10)))))) by ring. rewrite !exp_plus, !exp_ln by lra. lra. }
  set (d := ln 10 - LN10_). assert (D : 0 < d <= 1 / 10 ^ 28) by (unfold d, LN10_; numR; dec_norm; lra).
  replace (LN10_ * 7) with (ln 10 * 7 + - (7 * d)) by (unfold d; ring). rewrite exp_plus, E7. clearbody d.
  assert (U : exp (- (7 * d)) < 1) by (rewrite <- exp_0; apply exp_increasing; lra).
  pose proof (exp_ineq1_le (- (7 * d))) as L. lra.
Qed.
Lemma below_end x : is_double x -> ~ (10000000 - 1 / 10 ^ 9 <= x < 10000000).
Proof.
  intros (m & e & M & ->) [L U]. assert (M' : IZR (Z.abs m) < IZR (2 ^ 53)) by (apply IZR_lt; exact M). change (2 ^ 53)%Z with 9007199254740992%Z in M'.
  assert (P : 0 < powerRZ 2 e) by (apply powerRZ_lt; lra).
  assert (E : (-29 <= e)%Z).
  { destruct (Z_lt_le_dec e (-29)) as [H|H]; [|exact H]. exfalso.
    assert (Q : powerRZ 2 e <= / 1073741824).
    { replace (/ 1073741824) with (powerRZ 2 (-30)) by (unfold powerRZ; change (Pos.to_nat 30) with 30%nat; f_equal; lra). replace (-30)%Z with (e + (-30 - e))%Z by lia. rewrite powerRZ_add by lra.
      rewrite <- (Rmult_1_r (powerRZ 2 e)) at 1. apply Rmult_le_compat_l; [lra|]. replace (-30 - e)%Z with (Z.of_nat (Z.to_nat (-30 - e))) by lia. rewrite <- pow_powerRZ. apply pow_R1_Rle. lra. }
    assert (IZR m <= IZR (Z.abs m)) by (apply IZR_le; lia). nra. }
  (* the number is a multiple of 2^-29 *)
  assert (K : IZR m * powerRZ 2 e = IZR (m * 2 ^ (e + 29)) * / 536870912).
  { replace e with ((e + 29) + (-29))%Z at 1 by lia. rewrite powerRZ_add by lra. replace (e + 29)%Z with (Z.of_nat (Z.to_nat (e + 29))) by lia. rewrite <- pow_powerRZ, mult_IZR, <- pow_IZR. cbn [powerRZ]. replace (2 ^ Pos.to_nat 29) with 536870912 by (change (Pos.to_nat 29) with 29%nat; lra). ring. }
  rewrite K in L, U. set (k := (m * 2 ^ (e + 29))%Z) in *. clearbody k.
  assert (KU : (k < 5368709120000000)%Z) by (apply lt_IZR; lra). assert (KL : IZR k <= 5368709120000000 - 1) by (rewrite <- minus_IZR; apply IZR_le; lia). lra.
Qed.
Theorem C25_window_no_double x : is_double x -> ~ just_below_table_end x.
Proof.
  intros D J. unfold just_below_table_end in J. pose proof end_bounds. pose proof eps_small. apply (below_end x D). cbv zeta in J. lra.
Qed.
Print Assumptions C25_window_no_double.

(** so for energies given as doubles the stopping power and the straggling are defined, whatever the energy *)
Theorem C38_doubles p m c : 1 <= pZ p < 109 -> (forall t, In t (m_atoms m) -> (1 <= tZ t)%Z) -> is_double (pT p) ->
  (exists v, dedx (F:=R) p m c = Ok v) /\ (exists v, domega2dx (F:=R) p m c = Ok v).
Proof. intros Z Tg D. apply C38_in_bounds; [exact Z|exact Tg|apply C25_window_no_double; exact D]. Qed.
Print Assumptions C38_doubles.

(** concrete: the double just below 10^7 is outside the window, and so is 10^7 *)
Example C25_window_case : is_double 10000000 /\ is_double (10000000 - 1 / 536870912) /\ just_below_table_end (exp (LN10_ * 7) - 1 / 10 ^ 16).
Proof.
  split; [exists 10000000%Z, 0%Z; split; [lia|cbn; lra]|]. split.
  - exists 5368709119999999%Z, (-29)%Z. split; [lia|]. unfold powerRZ. change (Pos.to_nat 29) with 29%nat. lra.
  - unfold just_below_table_end. cbv zeta. assert (1 / 10 ^ 15 < numeric_epsilon (F:=R)) by (unfold numeric_epsilon; numR; dec_norm; lra). lra.
Qed.
