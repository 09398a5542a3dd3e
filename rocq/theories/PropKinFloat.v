(** * Property C36 in binary64: rounding errors of the kinematics *)
From Flocq Require Import Core.
From Coq Require Import ZArith Reals List Bool Lra Lia Floats SpecFloat.
From Verif Require Import Num NumR NumF Structures Calculations PropKin Binary64 Binary64Num PropGridFloat PropTableFloat PropResultFloat BinaryRel.
Import ListNotations.
Local Open Scope R_scope.

Definition gammaF lm (T : float) : float := gamma_from_T (N:=NumF lm) T.
Definition betaF lm (T : float) : float := beta_from_T (N:=NumF lm) T.
Definition momentumF lm (T M : float) : float := p_from_T (N:=NumF lm) T M.

Lemma amu_val lm : fin (atomic_mass_unit (N:=NumF lm)) /\ u0 * (1 - u) <= val (atomic_mass_unit (N:=NumF lm)) <= u0 * (1 + u).
Proof.
  assert (A : app (atomic_mass_unit (N:=NumF lm)) u0 (/ 10 ^ 13)) by (unfold atomic_mass_unit; cbn [lit NumF]; unfold u0; closed_double (F_lit 931.4940954); lra).
  pose proof (app_bounds _ _ _ A). split; [exact (app_fin _ _ _ A)|]. unfold u0, u in *. lra.
Qed.

Lemma uu_le t : 0 <= t -> 0 <= u * u * t <= / 10 ^ 15 * (u * t).
Proof.
  intros H. assert (U0 : 0 <= u <= / 10 ^ 15) by (unfold u; lra). assert (0 <= u * t) by (apply Rmult_le_pos; lra). rewrite Rmult_assoc. split; [apply Rmult_le_pos; lra|apply Rmult_le_compat_r; lra].
Qed.
(** an energy in the range the library is meant for, and below *)
Definition energy_like (T : float) : Prop := fin T /\ 0 <= val T <= 10 ^ 10.

Lemma gamma_chain lm T : energy_like T -> let a := val (atomic_mass_unit (N:=NumF lm)) in
  fin (gammaF lm T) /\ val (gammaF lm T) = rnd (1 + rnd (val T / a)) /\ 1 <= val (gammaF lm T) <= 2 * 10 ^ 7 /\ 0 <= rnd (val T / a).
Proof.
  intros [F B] a. destruct (amu_val lm) as [FA BA]. fold a in BA. assert (U0 : 0 < u < / 10 ^ 15) by (unfold u; lra). assert (AB : 931 <= a <= 932) by (unfold u0 in BA; nra). pose proof big_ge as BG. destruct (lit1_val lm) as [F1 V1].
  assert (Q : 0 <= val T / a <= 11 * 10 ^ 6). { unfold Rdiv. split; [apply Rmult_le_pos; [lra|left; apply Rinv_0_lt_compat; lra]|]. apply Rmult_le_reg_r with a; [lra|]. rewrite Rmult_assoc, Rinv_l by lra. nra. }
  unfold gammaF, gamma_from_T. cbn [fadd fdiv NumF]. destruct (div_val T (atomic_mass_unit (N:=NumF lm)) F ltac:(fold a; lra)) as [FQ VQ]; [fold a; rewrite Rabs_pos_eq; lra|]. fold a in VQ.
  pose proof (rnd_nonneg _ (proj1 Q)) as R1. pose proof (rnd_ge_0 _ (proj1 Q)) as R0. pose proof tiny_le. 
  assert (QB : rnd (val T / a) <= 12 * 10 ^ 6) by nra.
  destruct (add_val (lit (Num:=NumF lm) 1.0) (T / atomic_mass_unit (N:=NumF lm))%float F1 FQ) as [FG VG]; [rewrite V1, VQ, Rabs_pos_eq; lra|]. rewrite V1, VQ in VG. split; [exact FG|]. split; [exact VG|]. split; [|exact R0]. rewrite VG.
  pose proof (rnd_pos (1 + rnd (val T / a)) ltac:(lra)) as R2. split; [|nra]. pose proof (rnd_le 1 (1 + rnd (val T / a)) ltac:(lra)) as R3. replace (rnd 1) with 1 in R3; [exact R3|]. rewrite <- V1. symmetry. apply rnd_val.
Qed.
Lemma gamma_mono lm S T : energy_like S -> energy_like T -> val S <= val T -> val (gammaF lm S) <= val (gammaF lm T).
Proof.
  intros HS HT L. destruct (gamma_chain lm S HS) as (_ & -> & _). destruct (gamma_chain lm T HT) as (_ & -> & _). apply rnd_le, Rplus_le_compat_l, rnd_le. unfold Rdiv. apply Rmult_le_compat_r; [|exact L].
  destruct (amu_val lm) as [_ BA]. unfold u0, u in BA. left. apply Rinv_0_lt_compat. lra.
Qed.
Lemma gamma_error lm T : energy_like T -> (1 + val T / u0) * (1 - 6 * u) <= val (gammaF lm T) <= (1 + val T / u0) * (1 + 6 * u).
Proof.
  intros H. destruct (gamma_chain lm T H) as (_ & V & _ & R0). rewrite V. destruct (amu_val lm) as [FA BA]. set (a := val (atomic_mass_unit (N:=NumF lm))) in *. assert (U0 : 0 < u < / 10 ^ 15 /\ / 10 ^ 29 <= u) by (unfold u; lra).
  destruct H as [_ B]. assert (AB : 931 <= a <= 932) by (unfold u0 in BA; nra). assert (UB : 931 <= u0 <= 932) by (unfold u0; lra). set (t := val T / u0). assert (T0 : 0 <= t) by (unfold t, Rdiv; apply Rmult_le_pos; [lra|left; apply Rinv_0_lt_compat; lra]).
  assert (Q : t * (1 - 2 * u) <= val T / a <= t * (1 + 2 * u)).
  { assert (TE : val T = t * u0) by (unfold t; field; lra). rewrite TE. unfold Rdiv. clearbody t. split; apply Rmult_le_reg_r with a; try lra; rewrite (Rmult_assoc (t * u0)), Rinv_l by lra; rewrite Rmult_1_r.
    - assert (a * (1 - 2 * u) <= u0) by nra. nra.
    - assert (u0 <= a * (1 + 2 * u)) by nra. nra. }
  clearbody t a. assert (Q0 : 0 <= val T / a) by nra. pose proof (rnd_nonneg _ Q0) as R1. pose proof tiny_le. set (q := val T / a) in *. set (r := rnd q) in *. clearbody q r. pose proof (rnd_pos (1 + r) ltac:(lra)) as R2. set (g := rnd (1 + r)) in *. clearbody g.
  assert (R3 : t * (1 - 4 * u) - / 10 ^ 30 <= r <= t * (1 + 4 * u) + / 10 ^ 30) by (clear - R1 Q U0 T0 H; assert (K1 : q * (1 + u) <= t * (1 + 2 * u) * (1 + u)) by (apply Rmult_le_compat_r; lra); assert (K2 : t * (1 - 2 * u) * (1 - u) <= q * (1 - u)) by (apply Rmult_le_compat_r; lra); assert (K3 : 0 <= u * u * t <= / 10 ^ 15 * (u * t)) by (exact (uu_le t T0)); nra).
  clear - R2 R3 U0 T0. assert (K1 : (1 + r) * (1 + u) <= (1 + t * (1 + 4 * u) + / 10 ^ 30) * (1 + u)) by (apply Rmult_le_compat_r; lra). assert (K2 : (1 + t * (1 - 4 * u) - / 10 ^ 30) * (1 - u) <= (1 + r) * (1 - u)) by (apply Rmult_le_compat_r; lra).
  assert (K3 : 0 <= u * u * t <= / 10 ^ 15 * (u * t)) by (exact (uu_le t T0)). clear R3. nra.
Qed.

(** gamma is right to 6 half-units of the last place, at least 1, and does not decrease *)
Theorem C36_gamma_binary64 lm : (forall T, energy_like T -> fin (gammaF lm T) /\ 1 <= val (gammaF lm T) /\ Rabs (val (gammaF lm T) - gamma_from_T (val T)) <= 6 * u * gamma_from_T (val T)) /\
  (forall S T, energy_like S -> energy_like T -> val S <= val T -> val (gammaF lm S) <= val (gammaF lm T)).
Proof.
  split; [|exact (gamma_mono lm)]. intros T H. destruct (gamma_chain lm T H) as (F & _ & B & _). split; [exact F|]. split; [lra|]. rewrite gamma_R. pose proof (gamma_error lm T H). apply Rabs_le. lra.
Qed.
Print Assumptions C36_gamma_binary64.

Lemma beta_chain lm T : energy_like T -> let g := val (gammaF lm T) in
  fin (betaF lm T) /\ val (betaF lm T) = rnd (R_sqrt.sqrt (rnd (1 - rnd (1 / rnd (g * g))))) /\ 1 <= rnd (g * g) <= 10 ^ 15 /\ 0 < rnd (1 / rnd (g * g)) <= 1 /\ 0 <= rnd (1 - rnd (1 / rnd (g * g))) <= 1.
Proof.
  intros H g. destruct (gamma_chain lm T H) as (FG & _ & BG & _). fold g in BG. destruct (lit1_val lm) as [F1 V1]. pose proof big_ge as BB. assert (U0 : 0 < u < / 10 ^ 15) by (unfold u; lra). assert (E1 : rnd 1 = 1) by (rewrite <- V1; apply rnd_val).
  assert (GG : 1 <= g * g <= 4 * 10 ^ 14) by nra. unfold betaF, beta_from_T. cbn [fadd fdiv fmul fsub fsqrt NumF]. fold (gammaF lm T).
  destruct (mul_val (gammaF lm T) (gammaF lm T) FG FG) as [F2 V2]; [fold g; rewrite Rabs_pos_eq; lra|]. fold g in V2. pose proof (rnd_pos (g * g) ltac:(lra)) as R2. assert (L2 : 1 <= rnd (g * g)) by (apply Rle_trans with (rnd 1); [lra|]; apply rnd_le; lra). assert (B2 : rnd (g * g) <= 10 ^ 15) by nra. set (gg := rnd (g * g)) in *.
  assert (I2 : 0 < 1 / gg <= 1) by (unfold Rdiv; rewrite Rmult_1_l; split; [apply Rinv_0_lt_compat; lra|rewrite <- Rinv_1; apply Rinv_le_contravar; lra]). assert (I3 : / 10 ^ 15 <= 1 / gg) by (unfold Rdiv; rewrite Rmult_1_l; apply Rinv_le_contravar; lra).
  destruct (div_val (lit (Num:=NumF lm) 1.0) (gammaF lm T * gammaF lm T)%float F1 ltac:(rewrite V2; lra)) as [F3 V3]; [rewrite V1, V2, Rabs_pos_eq; lra|]. rewrite V1, V2 in V3. pose proof (rnd_pos (1 / gg) ltac:(lra)) as R3. assert (L3 : rnd (1 / gg) <= 1) by (apply Rle_trans with (rnd 1); [|lra]; apply rnd_le; lra). assert (P3 : 0 < rnd (1 / gg)) by nra. set (i := rnd (1 / gg)) in *.
  destruct (sub_val (lit (Num:=NumF lm) 1.0) _ F1 F3) as [F4 V4]; [rewrite V1, V3, Rabs_pos_eq; lra|]. rewrite V1, V3 in V4. assert (L4 : rnd (1 - i) <= 1) by (apply Rle_trans with (rnd 1); [|lra]; apply rnd_le; lra). pose proof (rnd_ge_0 (1 - i) ltac:(lra)) as P4.
  destruct (sqrt_val _ F4 ltac:(rewrite V4; exact P4)) as [F5 V5]. rewrite V4 in V5. split; [exact F5|]. split; [exact V5|]. split; [lra|]. lra.
Qed.

Lemma beta_mono lm S T : energy_like S -> energy_like T -> val S <= val T -> val (betaF lm S) <= val (betaF lm T).
Proof.
  intros HS HT L. pose proof (gamma_mono lm S T HS HT L) as G. destruct (gamma_chain lm S HS) as (_ & _ & B & _). destruct (beta_chain lm S HS) as (_ & -> & B1 & _). destruct (beta_chain lm T HT) as (_ & -> & B2 & _).
  apply rnd_le, sqrt_le_1_alt, rnd_le, Rplus_le_compat_l, Ropp_le_contravar, rnd_le. unfold Rdiv. rewrite !Rmult_1_l. apply Rinv_le_contravar; [lra|]. apply rnd_le. nra.
Qed.

Lemma beta_error lm T : energy_like T -> let b := beta_from_T (F:=R) (val T) in Rabs (val (betaF lm T) - b) * b <= 23 * u.
Proof.
  intros H b. destruct (beta_chain lm T H) as (_ & V & B2 & B3 & B4). pose proof (gamma_error lm T H) as G. destruct H as [_ HB]. pose proof (beta_sq (val T) (proj1 HB)) as BS. fold b in BS. pose proof (proj1 (proj1 C36_beta (val T) (proj1 HB))) as BP. pose proof (proj2 (proj1 C36_beta (val T) (proj1 HB))) as BL. fold b in BP, BL.
  pose proof (gamma_ge1 (val T) (proj1 HB)) as G1. set (y := 1 + val T / u0) in *. set (g := val (gammaF lm T)) in *. assert (U0 : 0 < u < / 10 ^ 15 /\ / 10 ^ 29 <= u) by (unfold u; lra). rewrite V. clear V HB. clearbody b y g.
  assert (YB : 1 <= y * y) by nra. set (Y := y * y) in *. assert (GG : Y * (1 - 13 * u) <= g * g <= Y * (1 + 13 * u)).
  { unfold Y. assert (0 <= y * (1 - 6 * u)) by nra. assert (y * (1 - 6 * u) * (y * (1 - 6 * u)) <= g * g) by (apply Rmult_le_compat; lra). assert (g * g <= y * (1 + 6 * u) * (y * (1 + 6 * u))) by (apply Rmult_le_compat; lra).
    assert (0 <= u * (y * y)) by (apply Rmult_le_pos; nra). assert (u * u * (y * y) <= / 10 ^ 15 * (u * (y * y))) by nra. nra. }
  clearbody Y. assert (GP : / 10 ^ 30 <= g * g) by nra. pose proof (rnd_pos (g * g) GP) as R2. set (gg := rnd (g * g)) in *. assert (GB : Y * (1 - 15 * u) <= gg <= Y * (1 + 15 * u)) by (clear - GG R2 U0 YB; nra). clearbody gg. clear GG R2 GP.
  assert (IB : 1 / Y * (1 - 17 * u) <= 1 / gg <= 1 / Y * (1 + 17 * u)).
  { unfold Rdiv. rewrite !Rmult_1_l. assert (YI : 0 < / Y) by (apply Rinv_0_lt_compat; lra). assert (GI : 0 < / gg) by (apply Rinv_0_lt_compat; lra). split.
    - apply Rmult_le_reg_r with (gg * Y); [nra|]. replace (/ Y * (1 - 17 * u) * (gg * Y)) with (gg * (1 - 17 * u)) by (field; lra). replace (/ gg * (gg * Y)) with Y by (field; lra). clear - GB U0 YB B2. nra.
    - apply Rmult_le_reg_r with (gg * Y); [nra|]. replace (/ Y * (1 + 17 * u) * (gg * Y)) with (gg * (1 + 17 * u)) by (field; lra). replace (/ gg * (gg * Y)) with Y by (field; lra). clear - GB U0 YB B2. nra. }
  assert (I1 : 0 < 1 / Y <= 1) by (unfold Rdiv; rewrite Rmult_1_l; split; [apply Rinv_0_lt_compat; lra|rewrite <- Rinv_1; apply Rinv_le_contravar; lra]).
  assert (IP : / 10 ^ 30 <= 1 / gg) by (unfold Rdiv; rewrite Rmult_1_l; apply Rinv_le_contravar; lra). pose proof (rnd_pos (1 / gg) IP) as R3. set (i := rnd (1 / gg)) in *. set (J := 1 / Y) in *.
  assert (IE : J - 19 * u <= i <= J + 19 * u) by (clear - R3 IB I1 U0; set (z := 1 / gg) in *; clearbody z i J; nra). clearbody i J. pose proof (rnd_nonneg (1 - i) ltac:(lra)) as R4. set (d := rnd (1 - i)) in *. pose proof tiny_le. 
  assert (DE : Rabs (d - b * b) <= 21 * u) by (rewrite BS; apply Rabs_le; clear - R4 IE H U0 B3; clearbody d; nra). clearbody d. clear R4 IE H R3 IB.
  assert (S1 : Rabs (R_sqrt.sqrt d - b) * b <= 21 * u).
  { pose proof (sqrt_pos d) as SP. pose proof (sqrt_sqrt d ltac:(lra)) as SS. set (s := R_sqrt.sqrt d) in *. clearbody s. apply Rle_trans with (Rabs (s - b) * (s + b)); [apply Rmult_le_compat_l; [apply Rabs_pos|lra]|].
    replace (Rabs (s - b) * (s + b)) with (Rabs (d - b * b)); [exact DE|]. transitivity (Rabs (s - b) * Rabs (s + b)); [|rewrite (Rabs_pos_eq (s + b)) by lra; reflexivity]. rewrite <- Rabs_mult. f_equal. rewrite <- SS. ring. }
  assert (SB : 0 <= R_sqrt.sqrt d <= 1) by (split; [apply sqrt_pos|rewrite <- sqrt_1; apply sqrt_le_1_alt; lra]). pose proof (rnd_error (R_sqrt.sqrt d)) as R5. rewrite (Rabs_pos_eq (R_sqrt.sqrt d)) in R5 by lra. pose proof tiny_le as TL. set (s := R_sqrt.sqrt d) in *. set (r := rnd s) in *. clearbody s r.
  assert (US : u * s <= u * 1) by (apply Rmult_le_compat_l; lra). assert (R6 : Rabs (r - s) * b <= u * (3 / 2) * 1) by (apply Rmult_le_compat; try lra; apply Rabs_pos).
  replace (r - b) with ((r - s) + (s - b)) by ring. pose proof (Rabs_triang (r - s) (s - b)) as TR. apply Rmult_le_compat_r with (r := b) in TR; [|exact BP]. lra.
Qed.

Lemma beta_below_1 lm T : energy_like T -> 0 <= val (betaF lm T) < 1.
Proof.
  intros H. destruct (beta_chain lm T H) as (_ & V & B2 & B3 & B4). rewrite V. split; [apply rnd_ge_0, sqrt_pos|]. set (gg := rnd (val (gammaF lm T) * val (gammaF lm T))) in *. assert (I3 : / 10 ^ 15 <= 1 / gg) by (unfold Rdiv; rewrite Rmult_1_l; apply Rinv_le_contravar; lra).
  pose proof (rnd_pos (1 / gg) ltac:(lra)) as R3. set (i := rnd (1 / gg)) in *. assert (I4 : 99 / 100 * / 10 ^ 15 <= i) by (unfold u in R3; lra). clearbody i. clear R3 I3.
  pose proof (rnd_nonneg (1 - i) ltac:(lra)) as R4. pose proof tiny_le as TL. assert (D4 : rnd (1 - i) <= 1 - 8 / 10 * / 10 ^ 15) by (unfold u in R4; lra). set (d := rnd (1 - i)) in *. clearbody d. clear R4.
  assert (S4 : R_sqrt.sqrt d <= 1 - 4 / 10 * / 10 ^ 15). { rewrite <- (sqrt_square (1 - 4 / 10 * / 10 ^ 15)) by lra. apply sqrt_le_1_alt. lra. }
  pose proof (sqrt_pos d). pose proof (rnd_nonneg (R_sqrt.sqrt d) ltac:(lra)) as R5. unfold u in R5. lra.
Qed.

(** beta lies between 0 and 1, does not decrease, and its error times beta is at most 23 half-units: the
    relative error is small except at low energies, where the code subtracts two numbers close to 1 *)
Theorem C36_beta_binary64 lm :
  (forall T, energy_like T -> fin (betaF lm T) /\ 0 <= val (betaF lm T) < 1 /\
     Rabs (val (betaF lm T) - beta_from_T (val T)) * beta_from_T (val T) <= 23 * u) /\
  (forall S T, energy_like S -> energy_like T -> val S <= val T -> val (betaF lm S) <= val (betaF lm T)).
Proof.
  split; [|exact (beta_mono lm)]. intros T H. destruct (beta_chain lm T H) as (F & _). split; [exact F|]. split; [exact (beta_below_1 lm T H)|exact (beta_error lm T H)].
Qed.
Print Assumptions C36_beta_binary64.

(** hence from 1 keV per nucleon on the velocity is right to nine digits *)
Theorem C36_beta_binary64_digits lm T : energy_like T -> / 1000 <= val T -> Rabs (val (betaF lm T) - beta_from_T (val T)) <= 2 * / 10 ^ 9 * beta_from_T (val T).
Proof.
  intros H L. pose proof (beta_error lm T H) as E. cbv zeta in E. destruct H as [_ HB]. pose proof (beta_sq (val T) (proj1 HB)) as BS. pose proof (proj1 (proj1 C36_beta (val T) (proj1 HB))) as BP. set (b := beta_from_T (val T)) in *. set (e := Rabs (val (betaF lm T) - b)) in *. assert (E0 : 0 <= e) by apply Rabs_pos. clearbody e.
  assert (TL : / 10 ^ 6 <= val T / u0) by (unfold u0, Rdiv; apply Rmult_le_reg_r with (9314940954 / 10 ^ 7); [lra|]; rewrite Rmult_assoc; replace (/ (9314940954 / 10 ^ 7) * (9314940954 / 10 ^ 7)) with 1 by field; lra).
  assert (B2 : 19 / 10 * / 10 ^ 6 <= b * b).
  { rewrite BS. set (t := val T / u0) in *. clearbody t. assert (1 / ((1 + t) * (1 + t)) <= 1 - 19 / 10 * / 10 ^ 6); [|lra]. unfold Rdiv. rewrite Rmult_1_l. apply Rmult_le_reg_r with ((1 + t) * (1 + t)); [nra|]. rewrite Rinv_l by nra. nra. }
  clearbody b. assert (BB : / 1000 <= b) by nra. apply Rmult_le_reg_r with b; [lra|]. apply Rle_trans with (1 := E). unfold u. replace (2 * / 10 ^ 9 * b * b) with (2 * / 10 ^ 9 * (b * b)) by ring. lra.
Qed.
Print Assumptions C36_beta_binary64_digits.

(** at the ends of the range: a moving particle whose beta is 0, and, beyond the range, one whose beta is 1 *)
Theorem C36_beta_binary64_refuted lm :
  (exists T, energy_like T /\ 0 < val T /\ val (betaF lm T) = 0 /\ 0 < beta_from_T (val T)) /\ (exists T, fin T /\ 0 < val T /\ val (betaF lm T) = 1 /\ beta_from_T (val T) < 1).
Proof.
  split.
  - assert (A : app 0x1p-50%float (/ 1125899906842624) 0) by (closed_double (0x1p-50)%float; lra). destruct (app_fin _ _ _ A). pose proof (app_bounds _ _ _ A) as B. exists 0x1p-50%float. split; [split; [exact (app_fin _ _ _ A)|lra]|]. split; [lra|]. split.
    + assert (Z0 : app (betaF lm 0x1p-50%float) 0 0) by (closed_double (betaF lm 0x1p-50)%float; lra). pose proof (app_bounds _ _ _ Z0). lra.
    + apply C36_beta. lra.
  - assert (A : app 0x1p40%float 1099511627776 0) by (closed_double (0x1p40)%float; lra). pose proof (app_bounds _ _ _ A) as B. exists 0x1p40%float. split; [exact (app_fin _ _ _ A)|]. split; [lra|]. split.
    + assert (Z0 : app (betaF lm 0x1p40%float) 1 0) by (closed_double (betaF lm 0x1p40)%float; lra). pose proof (app_bounds _ _ _ Z0). lra.
    + apply C36_beta. lra.
Qed.
Print Assumptions C36_beta_binary64_refuted.

Lemma amu_rel lm : relF (atomic_mass_unit (N:=NumF lm)) u0 1.
Proof. destruct (amu_val lm) as [F B]. split; [exact F|]. unfold rel. lra. Qed.
Lemma lit2_rel lm : relF (lit (Num:=NumF lm) 2) 2 0.
Proof. assert (A : app (lit (Num:=NumF lm) 2) 2 0) by (closed_double (lit (Num:=NumF lm) 2); lra). pose proof (app_bounds _ _ _ A). split; [exact (app_fin _ _ _ A)|]. unfold rel. lra. Qed.
(** both functions called p_from_T are right to 5 half-units, so the two differ by at most 10 *)
Theorem C36_momentum_binary64 lm T M : fin T -> fin M -> / 10 ^ 10 <= val T <= 10 ^ 10 -> / 10 ^ 10 <= val M <= 10 ^ 10 ->
  let p := p_from_T (F:=R) (val T) (val M) in
  0 < p /\ fin (momentumF lm T M) /\ Rabs (val (momentumF lm T M) - p) <= 5 * u * p /\
  fin (p_from_T_reactions (N:=NumF lm) T M) /\ Rabs (val (p_from_T_reactions (N:=NumF lm) T M) - p) <= 5 * u * p.
Proof.
  intros FT FM BT BM p. set (t := val T) in *. set (m := val M) in *. assert (EP : p = R_sqrt.sqrt (t * (t + 2 * u0)) * m).
  { unfold p, p_from_T. rewrite u0_eq. numR. replace (Rlit 2) with 2 by (dec_norm; lra). reflexivity. }
  pose proof (relF_exact T FT) as HT. pose proof (relF_exact M FM) as HM. fold t in HT. fold m in HM. pose proof (amu_rel lm) as HA. pose proof (lit2_rel lm) as H2. assert (U0 : 931 < u0 < 932) by (unfold u0; lra).
  assert (Q : 9 * / 10 ^ 8 <= t * (t + 2 * u0) <= 10 ^ 21) by (clear - BT U0; nra).
  assert (SQ : / 10 ^ 4 <= R_sqrt.sqrt (t * (t + 2 * u0)) <= 10 ^ 11).
  { split; [apply Rle_trans with (R_sqrt.sqrt (/ 10 ^ 4 * / 10 ^ 4)); [rewrite sqrt_square; lra|apply sqrt_le_1_alt; lra]|apply Rle_trans with (R_sqrt.sqrt (10 ^ 11 * 10 ^ 11)); [apply sqrt_le_1_alt; lra|rewrite sqrt_square; lra]]. }
  assert (SM : / 10 ^ 14 <= R_sqrt.sqrt (t * (t + 2 * u0)) * m <= 10 ^ 21) by (split; [apply Rle_trans with (/ 10 ^ 4 * / 10 ^ 10); [lra|apply Rmult_le_compat; lra]|apply Rle_trans with (10 ^ 11 * 10 ^ 10); [apply Rmult_le_compat; lra|lra]]).
  assert (K150 : 10 ^ 25 <= 10 ^ 150) by (apply Rle_pow; [lra|apply Nat.leb_le; reflexivity]).
  assert (SA : forall x, / 10 ^ 25 <= x <= 10 ^ 25 -> sane x) by (intros x X; unfold sane; lra). clear K150.
  assert (P1 : relF (momentumF lm T M) p 5).
  { rewrite EP. unfold momentumF, p_from_T. cbn [fadd fmul fsqrt NumF].
    pose proof (relF_mul _ _ _ _ _ _ H2 HA ltac:(lra) ltac:(lra) ltac:(lra) ltac:(lra) ltac:(apply SA; lra)) as A1.
    pose proof (relF_add _ _ _ _ _ _ (0 + 1 + 12 / 10) HT A1 ltac:(lra) ltac:(lra) ltac:(lra) ltac:(lra) ltac:(lra) ltac:(apply SA; lra)) as A2.
    pose proof (relF_mul _ _ _ _ _ _ HT A2 ltac:(lra) ltac:(lra) ltac:(lra) ltac:(lra) ltac:(apply SA; lra)) as A3.
    pose proof (relF_sqrt _ _ _ A3 ltac:(lra) ltac:(apply SA; lra)) as A4.
    pose proof (relF_mul _ _ _ _ _ _ A4 HM ltac:(lra) ltac:(lra) ltac:(lra) ltac:(lra) ltac:(apply SA; lra)) as A5.
    revert A5. apply relF_weaken; lra. }
  assert (P2 : relF (p_from_T_reactions (N:=NumF lm) T M) p 5).
  { rewrite EP, (Rmult_comm (R_sqrt.sqrt _)). replace (t * (t + 2 * u0)) with (t * t + 2 * t * u0) in * by ring. unfold p_from_T_reactions. cbn [fadd fmul fsqrt NumF].
    assert (TT : / 10 ^ 20 <= t * t <= 10 ^ 20) by (clear - BT; nra). assert (TU : / 10 ^ 8 <= 2 * t * u0 <= 10 ^ 14) by (clear - BT U0; nra).
    pose proof (relF_mul _ _ _ _ _ _ HT HT ltac:(lra) ltac:(lra) ltac:(lra) ltac:(lra) ltac:(apply SA; lra)) as A1.
    pose proof (relF_mul _ _ _ _ _ _ H2 HT ltac:(lra) ltac:(lra) ltac:(lra) ltac:(lra) ltac:(apply SA; lra)) as A2.
    pose proof (relF_mul _ _ _ _ _ _ A2 HA ltac:(lra) ltac:(lra) ltac:(lra) ltac:(lra) ltac:(apply SA; lra)) as A3.
    pose proof (relF_add _ _ _ _ _ _ (34 / 10) A1 A3 ltac:(lra) ltac:(lra) ltac:(lra) ltac:(lra) ltac:(lra) ltac:(apply SA; lra)) as A4.
    pose proof (relF_sqrt _ _ _ A4 ltac:(lra) ltac:(apply SA; lra)) as A5.
    pose proof (relF_mul _ _ _ _ _ _ HM A5 ltac:(lra) ltac:(lra) ltac:(lra) ltac:(lra) ltac:(apply SA; lra)) as A6.
    revert A6. apply relF_weaken; lra. }
  assert (PP : 0 < p) by (rewrite EP; lra). assert (PQ : 0 <= p) by lra. clear SQ SM. clearbody p. split; [exact PP|]. split; [exact (proj1 P1)|]. split; [exact (rel_abs _ _ _ PQ (proj2 P1))|]. split; [exact (proj1 P2)|]. exact (rel_abs _ _ _ PQ (proj2 P2)).
Qed.
Print Assumptions C36_momentum_binary64.

(** 100 MeV per nucleon, mass 12: the hypotheses hold, and the velocity is about 0.428 *)
Example C36_binary64_case lm : energy_like 100%float /\ / 1000 <= val 100%float /\ / 10 ^ 10 <= val 12%float <= 10 ^ 10 /\ fin 12%float /\ 42 / 100 < val (betaF lm 100%float) < 43 / 100.
Proof.
  assert (A : app 100%float 100 0) by (closed_double 100%float; lra). assert (B : app 12%float 12 0) by (closed_double 12%float; lra). assert (C : app (betaF lm 100%float) (4295 / 10000) (/ 10000)) by (closed_double (betaF lm 100)%float; lra).
  pose proof (app_bounds _ _ _ A). pose proof (app_bounds _ _ _ B). pose proof (app_bounds _ _ _ C). split; [split; [exact (app_fin _ _ _ A)|lra]|]. split; [lra|]. split; [lra|]. split; [exact (app_fin _ _ _ B)|]. lra.
Qed.
