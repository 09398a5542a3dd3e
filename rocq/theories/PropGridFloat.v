(** * Properties C18, C19 in binary64: the energy grid and its lookup with rounding errors *)
From Flocq Require Import Core.
From Coq Require Import ZArith Reals List Bool Lra Lia Floats SpecFloat.
From Verif Require Import Num NumR NumF Structures EnergyTable GridProofs TotalProofs PropGrid PropTables Binary64 Binary64Num.
Import ListNotations.
Local Open Scope R_scope.

(** a closed double is within e of r *)
Ltac closed_double c :=
  let s := eval vm_compute in (Prim2SF c) in
  split; [apply fin_SF; replace (Prim2SF c) with s by (vm_compute; reflexivity); exact I|];
  rewrite val_SF; replace (Prim2SF c) with s by (vm_compute; reflexivity); cbn [SFR Z.leb Z.compare Z.opp Z.pow Z.pow_pos Pos.iter Z.mul Pos.mul];
  apply Rabs_le.

Lemma exp_near x : Rabs x <= 1 / 2 -> Rabs (exp x - 1) <= 2 * Rabs x.
Proof.
  intros H. apply Rabs_le_inv in H. pose proof (exp_ineq1_le x) as L. pose proof (exp_ineq1_le (- x)) as L'. rewrite exp_Ropp in L'. pose proof (exp_pos x) as P.
  assert (U : exp x * (1 - x) <= 1). { apply Rmult_le_reg_r with (/ exp x); [now apply Rinv_0_lt_compat|]. replace (exp x * (1 - x) * / exp x) with (1 - x) by (field; lra). lra. }
  destruct (Rle_lt_dec 0 x); [rewrite (Rabs_pos_eq x) by lra|rewrite (Rabs_left x) by lra]; apply Rabs_le; nra.
Qed.
Lemma ln_near d : Rabs d <= 1 / 2 -> Rabs (ln (1 + d)) <= 2 * Rabs d.
Proof.
  intros H. apply Rabs_le_inv in H. assert (P : 0 < 1 + d) by lra.
  assert (U : ln (1 + d) <= d). { pose proof (exp_ineq1_le (ln (1 + d))) as Q. rewrite exp_ln in Q by exact P. lra. }
  assert (L : - ln (1 + d) <= / (1 + d) - 1). { pose proof (exp_ineq1_le (- ln (1 + d))) as Q. rewrite exp_Ropp, exp_ln in Q by exact P. lra. }
  assert (I1 : / (1 + d) - 1 = - d * / (1 + d)) by (field; lra). rewrite I1 in L.
  assert (I2 : 0 < / (1 + d) <= 2). { split; [now apply Rinv_0_lt_compat|]. replace 2 with (/ (1 / 2)) by lra. apply Rinv_le_contravar; lra. }
  destruct (Rle_lt_dec 0 d); [rewrite (Rabs_pos_eq d) by lra|rewrite (Rabs_left d) by lra]; apply Rabs_le; nra.
Qed.

(** the constants in binary64 *)
Lemma LN10_app lm : app (LN10_ (N:=NumF lm)) (LN10_ (F:=R)) (3 / 10 ^ 16).
Proof. unfold LN10_. cbn [lit NumF]. numR. closed_double (F_lit 2.30258509299404568401799145468). dec_norm. lra. Qed.
Lemma LN10_bounds : 23 / 10 < LN10_ (F:=R) < 231 / 100.
Proof. unfold LN10_. numR. dec_norm. lra. Qed.
Lemma logEmin_app lm : app (logEmin (N:=NumF lm)) (-3) 0.
Proof. unfold logEmin. cbn [lit NumF]. closed_double (F_lit (-3)); lra. Qed.

(** the double grid *)
Definition tableF (lm : Libm) : EnergyTable float := energy_table (N := NumF lm).
Definition energyF (lm : Libm) (i : nat) : float := nth i (et_values (tableF lm)) 0%float.
Lemma step_app lm : app (et_step (tableF lm)) (10 / 599) (2 / 10 ^ 18).
Proof. closed_double (et_step (tableF lm)). lra. Qed.
Lemma energyF_eq lm i : (i < 600)%nat -> energyF lm i = lm_exp lm (LN10_ (N:=NumF lm) * (logEmin (N:=NumF lm) + F_of_Z (Z.of_nat i) * et_step (tableF lm)))%float.
Proof.
  intros H. unfold energyF. change (et_values (tableF lm)) with (map (et_point (N:=NumF lm) (logEmin (N:=NumF lm)) (et_step (tableF lm))) (seq 0 600)).
  rewrite nth_indep with (d' := et_point (N:=NumF lm) (logEmin (N:=NumF lm)) (et_step (tableF lm)) 0) by (rewrite map_length, seq_length; exact H).
  rewrite map_nth, seq_nth by exact H. reflexivity.
Qed.

(** the argument of exp is right to 2e-14, for any index below 600 *)
Lemma argument_app lm i : (i < 600)%nat ->
  app (LN10_ (N:=NumF lm) * (logEmin (N:=NumF lm) + F_of_Z (Z.of_nat i) * et_step (tableF lm)))%float (LN10_ * (-3 + INR i * (10 / 599))) (2 / 10 ^ 14).
Proof.
  intros H. assert (I0 : 0 <= INR i <= 599). { split; [apply pos_INR|]. replace 599 with (INR 599) by (rewrite INR_IZR_INZ; reflexivity). apply le_INR. lia. }
  pose proof tiny_le as TL. pose proof tiny_pos as TP. pose proof big_ge as BG. pose proof LN10_bounds as LB.
  assert (A1 : app (F_of_Z (Z.of_nat i)) (INR i) 0).
  { destruct (F_of_Z_val (Z.of_nat i) ltac:(lia)) as [F V]. split; [exact F|]. rewrite V, <- INR_IZR_INZ. replace (INR i - INR i) with 0 by ring. rewrite Rabs_R0. lra. }
  assert (A2 : app (F_of_Z (Z.of_nat i) * et_step (tableF lm))%float (INR i * (10 / 599)) (3 / 10 ^ 15)).
  { eapply app_weaken; [apply (app_mul _ _ _ _ _ _ A1 (step_app lm))|]; rewrite ?(Rabs_pos_eq (INR i)), ?(Rabs_pos_eq (10 / 599)), ?(Rabs_pos_eq (INR i * (10 / 599))) by nra; unfold u; nra. }
  assert (B : Rabs (-3 + INR i * (10 / 599)) <= 7) by (apply Rabs_le; lra). pose proof (Rabs_pos (-3 + INR i * (10 / 599))) as BP.
  assert (A3 : app (logEmin (N:=NumF lm) + F_of_Z (Z.of_nat i) * et_step (tableF lm))%float (-3 + INR i * (10 / 599)) (4 / 10 ^ 15)).
  { eapply app_weaken; [apply (app_add _ _ _ _ _ _ (logEmin_app lm) A2); lra|]. 
    set (r := Rabs _) in *. clearbody r. unfold u. lra. }
  eapply app_weaken; [apply (app_mul _ _ _ _ _ _ (LN10_app lm) A3)|]; rewrite Rabs_mult, (Rabs_pos_eq LN10_) by lra; set (r := Rabs (-3 + INR i * (10 / 599))) in *; clearbody r; unfold u; nra.
Qed.

Lemma gstep600 : gstep 600 (-3) 7 = 10 / 599.
Proof. unfold gstep. replace (INR 600) with 600 by (rewrite INR_IZR_INZ; reflexivity). lra. Qed.

(** ** C18: every energy is right to 3e-14, whatever the last two bits of exp *)
Theorem C18_binary64 lm : exp_accurate lm -> length (et_values (tableF lm)) = 600%nat /\
  forall i, (i < 600)%nat -> fin (energyF lm i) /\ Rabs (val (energyF lm i) - energy i) <= 3 / 10 ^ 14 * energy i.
Proof.
  intros EX. split.
  { change (et_values (tableF lm)) with (map (et_point (N:=NumF lm) (logEmin (N:=NumF lm)) (et_step (tableF lm))) (seq 0 600)). now rewrite map_length, seq_length. }
  intros i H. rewrite energyF_eq by exact H. destruct (argument_app lm i H) as [F A]. set (x := (LN10_ (N:=NumF lm) * _)%float) in *.
  rewrite energy_G by exact H. unfold G600, gval. rewrite gstep600. set (r := LN10_ * (-3 + INR i * (10 / 599))) in *. 
  assert (I0 : 0 <= INR i <= 599). { split; [apply pos_INR|]. replace 599 with (INR 599) by (rewrite INR_IZR_INZ; reflexivity). apply le_INR. lia. }
  pose proof LN10_bounds as LB. assert (RB : -700 < r - 1 /\ r + 1 < 700) by (unfold r; nra). clearbody r.
  pose proof A as A'. apply Rabs_le_inv in A'. destruct (EX x F ltac:(lra)) as [F' E]. split; [exact F'|].
  set (d := val x - r) in *. assert (VE : exp (val x) = exp r * exp d) by (rewrite <- exp_plus; f_equal; unfold d; ring). rewrite VE in E. pose proof (exp_near d ltac:(lra)) as N. pose proof (exp_pos r) as P.
  apply Rabs_le_inv in N. apply Rabs_le_inv in E. assert (D1 : 1 - 4 / 10 ^ 14 <= exp d <= 1 + 4 / 10 ^ 14) by lra.
  assert (N' : Rabs (exp d - 1) <= 2 * Rabs d) by (apply exp_near; lra).
  (* exp d - 1 lies between d and d/(1-d) *)
  assert (D2 : 1 - 21 / 10 ^ 15 <= exp d <= 1 + 21 / 10 ^ 15).
  { pose proof (exp_ineq1_le d) as L. pose proof (exp_ineq1_le (- d)) as L'. rewrite exp_Ropp in L'. pose proof (exp_pos d) as Pd.
    assert (U : exp d * (1 - d) <= 1). { apply Rmult_le_reg_r with (/ exp d); [now apply Rinv_0_lt_compat|]. replace (exp d * (1 - d) * / exp d) with (1 - d) by (field; lra). lra. }
    clearbody d. split; [lra|]. clear - U A' D1. nra. }
  clear N N' A A' D1. set (X := val _) in *. set (e := exp d) in *. set (g := exp r) in *. clearbody X e g d. unfold u in E. apply Rabs_le. nra.
Qed.
Print Assumptions C18_binary64.

Lemma energyF_bounds lm i : exp_accurate lm -> (i < 600)%nat -> fin (energyF lm i) /\ 0 < energy i /\
  energy i * (1 - 3 / 10 ^ 14) <= val (energyF lm i) <= energy i * (1 + 3 / 10 ^ 14).
Proof.
  intros EX H. destruct (C18_binary64 lm EX) as [_ G]. destruct (G i H) as [F A]. split; [exact F|]. split; [now apply energy_pos|]. apply Rabs_le_inv in A. lra.
Qed.
Lemma energy_step i : (S i < 600)%nat -> energy i * (1 + 38 / 1000) <= energy (S i).
Proof.
  intros H. rewrite !energy_G by lia. unfold G600, gval. rewrite gstep600, S_INR. replace (LN10_ * (-3 + (INR i + 1) * (10 / 599))) with (LN10_ * (-3 + INR i * (10 / 599)) + LN10_ * (10 / 599)) by ring.
  rewrite exp_plus. apply Rmult_le_compat_l; [left; apply exp_pos|]. pose proof (exp_ineq1_le (LN10_ * (10 / 599))). pose proof LN10_bounds. lra.
Qed.

(** so the array is strictly increasing, with the ratio of neighbours above 1.037 *)
Theorem C18_binary64_increasing lm i : exp_accurate lm -> (S i < 600)%nat ->
  0 < val (energyF lm i) /\ val (energyF lm i) * 1.037 < val (energyF lm (S i)).
Proof.
  intros EX H. destruct (energyF_bounds lm i EX ltac:(lia)) as (_ & P & B). destruct (energyF_bounds lm (S i) EX ltac:(lia)) as (_ & _ & B').
  pose proof (energy_step i H). replace 1.037 with (1037 / 1000) by lra. nra.
Qed.
Print Assumptions C18_binary64_increasing.

(** ** C19 *)
Lemma agetF lm i : (0 <= i < 600)%Z -> aget (et_values (tableF lm)) i = Ok (energyF lm (Z.to_nat i)).
Proof.
  intros H. apply aget_ok. split; [lia|]. unfold energyF. apply nth_error_nth'.
  change (et_values (tableF lm)) with (map (et_point (N:=NumF lm) (logEmin (N:=NumF lm)) (et_step (tableF lm))) (seq 0 600)). rewrite map_length, seq_length. lia.
Qed.
Lemma eps_app lm : app (numeric_epsilon (N:=NumF lm)) (10 / 4503599627370496) 0.
Proof. unfold numeric_epsilon. cbn [lit fmul fdiv NumF]. closed_double (F_lit 10 * (F_lit 1 / F_lit 4503599627370496))%float; lra. Qed.
Lemma step_nonzero lm : feqb (Num:=NumF lm) (et_step (tableF lm)) (lit (Num:=NumF lm) 0.0) = false.
Proof. vm_compute. reflexivity. Qed.

Lemma energy_low i : (i < 600)%nat -> / 2187 < energy i.
Proof.
  intros H. rewrite energy_G by exact H. eapply Rlt_le_trans; [exact gfirst_bound|]. apply gval_le; [apply n600|apply l600|apply pos_INR].
Qed.
Lemma exp_INR n : exp (INR n * 1) = exp 1 ^ n.
Proof. induction n as [|n IH]; [cbn; rewrite Rmult_0_l; apply exp_0|]. rewrite S_INR. replace ((INR n + 1) * 1) with (1 + INR n * 1) by ring. rewrite exp_plus, IH. reflexivity. Qed.
Lemma energy_high i : (i < 600)%nat -> energy i < 10 ^ 9.
Proof.
  intros H. rewrite energy_G by exact H. unfold G600, gval. rewrite gstep600.
  assert (I0 : 0 <= INR i <= 599). { split; [apply pos_INR|]. replace 599 with (INR 599) by (rewrite INR_IZR_INZ; reflexivity). apply le_INR. lia. }
  pose proof LN10_bounds as LB. apply Rlt_le_trans with (exp (INR 17 * 1)). { apply exp_increasing. replace (INR 17) with 17 by (rewrite INR_IZR_INZ; reflexivity). nra. }
  rewrite exp_INR. apply Rle_trans with (3 ^ 17); [|lra]. apply pow_incr. split; [left; apply exp_pos|apply exp_le_3].
Qed.

(** the value minus the tolerance, rounded *)
Lemma minus_eps lm i : exp_accurate lm -> (i < 600)%nat ->
  fin (energyF lm i - numeric_epsilon (N:=NumF lm))%float /\
  val (energyF lm i) * (1 - 6 / 10 ^ 12) <= val (energyF lm i - numeric_epsilon (N:=NumF lm))%float <= val (energyF lm i).
Proof.
  intros EX H. destruct (energyF_bounds lm i EX H) as (F & P & B). destruct (eps_app lm) as [FE AE]. pose proof tiny_le as TL. pose proof tiny_pos as TP. pose proof big_ge as BG.
  assert (VE : val (numeric_epsilon (N:=NumF lm)) = 10 / 4503599627370496). { apply Rabs_le_inv in AE. lra. } clear AE.
  pose proof (energy_low i H) as LO. pose proof (energy_high i H) as HI.
  assert (D : 0 < val (energyF lm i) - 10 / 4503599627370496 <= 10 ^ 10) by lra.
  destruct (sub_val _ _ F FE) as [FS VS]; [rewrite VE, Rabs_pos_eq; lra|]. split; [exact FS|]. rewrite VS, VE.
  split.
  - pose proof (rnd_error (val (energyF lm i) - 10 / 4503599627370496)) as Q. rewrite (Rabs_pos_eq (val _ - _)) in Q by lra. apply Rabs_le_inv in Q. unfold u in Q.
    set (e := val (energyF lm i)) in *. clearbody e. lra.
  - rewrite <- (rnd_val (energyF lm i)) at 2. apply rnd_le. lra.
Qed.

Lemma ln_div a b : 0 < a -> 0 < b -> ln (a / b) = ln a - ln b.
Proof. intros A B. unfold Rdiv. rewrite ln_mult, ln_Rinv by (try apply Rinv_0_lt_compat; assumption). ring. Qed.
Lemma exp_1_ge : 9 / 4 <= exp 1.
Proof. replace 1 with (1 / 2 + 1 / 2) by lra. rewrite exp_plus. pose proof (exp_ineq1_le (1 / 2)). nra. Qed.

Lemma div_le a b c : 0 < b -> a <= c * b -> a / b <= c.
Proof. intros B H. apply Rmult_le_reg_r with b; [exact B|]. unfold Rdiv. rewrite Rmult_assoc, Rinv_l by lra. lra. Qed.
Lemma Rdiv_pos a b : 0 <= a -> 0 < b -> 0 <= a / b.
Proof. intros A B. unfold Rdiv. apply Rmult_le_pos; [exact A|left; now apply Rinv_0_lt_compat]. Qed.

(** the position of v computed in binary64 *)
Definition positionF (lm : Libm) (v : float) : float := (lm_log lm (v / energyF lm 0) / LN10_ (N:=NumF lm) / et_step (tableF lm))%float.
Lemma position_app lm v : accurate lm -> fin v -> val (energyF lm 0) <= val v < 10 ^ 9 ->
  app (positionF lm v) (pos_of 600 (-3) 7 (val v)) (2 / 10 ^ 11).
Proof.
  intros [EX LG] FV [V0 V1]. destruct (energyF_bounds lm 0 EX ltac:(lia)) as (F0 & P0 & B0). pose proof (energy_low 0 ltac:(lia)) as L0.
  pose proof tiny_le as TL. pose proof tiny_pos as TP. pose proof big_ge as BG. pose proof LN10_bounds as LB. 
  assert (G0 : gfirst 600 (-3) 7 = energy 0) by (rewrite energy_G by lia; reflexivity).
  unfold positionF, pos_of. rewrite gstep600, G0. set (e0 := val (energyF lm 0)) in *. set (g0 := energy 0) in *. clearbody g0.
  assert (E0 : / 2188 < e0) by nra. clear L0.
  (* the quotient *)
  assert (R1 : 1 <= val v / e0 <= 3 * 10 ^ 12).
  { split; apply Rmult_le_reg_r with e0; try lra; unfold Rdiv; rewrite Rmult_assoc, Rinv_l by lra; nra. }
  destruct (div_val v (energyF lm 0) FV) as [FQ VQ]; [fold e0; lra|fold e0; rewrite Rabs_pos_eq; lra|]. fold e0 in VQ.
  set (q := (v / energyF lm 0)%float) in *. set (r := val v / e0) in *.
  assert (QE : Rabs (val q - r) <= 2 * u * r).
  { rewrite VQ. eapply Rle_trans; [apply rnd_relative; rewrite Rabs_pos_eq by lra; pose proof small_le; lra|]. rewrite Rabs_pos_eq by lra. unfold u. nra. }
  assert (RP : 0 < r) by lra. assert (QP : 0 < val q) by (apply Rabs_le_inv in QE; unfold u in QE; nra).
  assert (LQ : Rabs (ln (val q) - ln r) <= 4 * u).
  { rewrite <- ln_div by lra. replace (val q / r) with (1 + (val q - r) / r) by (field; lra).
    assert (D : Rabs ((val q - r) / r) <= 2 * u).
    { unfold Rdiv. rewrite Rabs_mult, Rabs_inv, (Rabs_pos_eq r) by lra. apply Rmult_le_reg_r with r; [lra|]. rewrite Rmult_assoc, Rinv_l by lra. lra. }
    eapply Rle_trans; [apply ln_near; unfold u in D |- *; lra|]. lra. }
  (* the reference v / g0 *)
  assert (LR : Rabs (ln r - ln (val v / g0)) <= 6 / 10 ^ 14).
  { rewrite <- ln_div by (try lra; apply Rdiv_lt_0_compat; lra). replace (r / (val v / g0)) with (g0 / e0) by (unfold r; field; lra). 
    replace (g0 / e0) with (/ (1 + (e0 - g0) / g0)) by (field; lra). rewrite ln_Rinv, Rabs_Ropp.
    2: { replace (1 + (e0 - g0) / g0) with (e0 / g0) by (field; lra). apply Rdiv_lt_0_compat; lra. }
    assert (D : Rabs ((e0 - g0) / g0) <= 3 / 10 ^ 14).
    { unfold Rdiv at 1. rewrite Rabs_mult, Rabs_inv, (Rabs_pos_eq g0) by lra. apply Rmult_le_reg_r with g0; [lra|]. rewrite Rmult_assoc, Rinv_l by lra. rewrite Rmult_1_r. apply Rabs_le. lra. }
    eapply Rle_trans; [apply ln_near; lra|]. lra. }
  assert (LB1 : 0 <= ln r <= 36).
  { split; [rewrite <- ln_1; apply ln_le; lra|]. rewrite <- (ln_exp 36). apply ln_le; [lra|]. eapply Rle_trans; [apply R1|].
    replace 36 with (INR 36 * 1) by (rewrite INR_IZR_INZ; cbn; lra). rewrite exp_INR. apply Rle_trans with ((9 / 4) ^ 36); [lra|].
    apply pow_incr. split; [lra|apply exp_1_ge]. }
  destruct (LG q FQ QP) as [FL VL].
  assert (A1 : app (lm_log lm q) (ln (val v / g0)) (2 / 10 ^ 13)).
  { split; [exact FL|]. apply Rabs_le_inv in VL, LQ, LR. assert (AQ : Rabs (ln (val q)) <= 37) by (apply Rabs_le; unfold u in LQ; lra). pose proof (Rabs_pos (ln (val q))).
    apply Rabs_le. unfold u in *. set (w := Rabs (ln (val q))) in *. clearbody w. lra. }
  assert (AB : Rabs (ln (val v / g0)) <= 37) by (apply Rabs_le; apply Rabs_le_inv in LR; lra). pose proof (Rabs_pos (ln (val v / g0))) as AP. 
  set (L := ln (val v / g0)) in *. clearbody L.
  assert (I1 : 43 / 100 <= / LN10_ <= 44 / 100).
  { split; apply Rmult_le_reg_r with LN10_; try lra; rewrite Rinv_l by lra; lra. }
  assert (A2 : app (lm_log lm q / LN10_ (N:=NumF lm))%float (L / LN10_) (1 / 10 ^ 13)).
  { assert (LL : Rabs (L / LN10_) <= 17) by (unfold Rdiv; rewrite Rabs_mult, (Rabs_pos_eq (/ LN10_)) by lra; nra). pose proof (Rabs_pos (L / LN10_)).
    assert (E : (2 / 10 ^ 13 * Rabs LN10_ + 3 / 10 ^ 16 * Rabs L) / (Rabs LN10_ * (Rabs LN10_ - 3 / 10 ^ 16)) <= 95 / 10 ^ 15).
    { rewrite (Rabs_pos_eq LN10_) by lra. apply div_le; nra. }
    assert (E' : 0 <= (2 / 10 ^ 13 * Rabs LN10_ + 3 / 10 ^ 16 * Rabs L) / (Rabs LN10_ * (Rabs LN10_ - 3 / 10 ^ 16))).
    { rewrite (Rabs_pos_eq LN10_) by lra. apply Rdiv_pos; nra. }
    eapply app_weaken; [apply (app_div _ _ _ _ _ _ A1 (LN10_app lm)); [rewrite Rabs_pos_eq; lra|lra]|].
    set (w := (_ / (Rabs LN10_ * _))) in *. set (y := Rabs (L / LN10_)) in *. clearbody w y. unfold u. lra. }
  assert (LL : Rabs (L / LN10_) <= 17) by (unfold Rdiv; rewrite Rabs_mult, (Rabs_pos_eq (/ LN10_)) by lra; nra). pose proof (Rabs_pos (L / LN10_)) as LP.
  set (M := L / LN10_) in *. clearbody M.
  assert (MM : Rabs (M / (10 / 599)) <= 1100) by (unfold Rdiv at 1; rewrite Rabs_mult, (Rabs_pos_eq (/ (10 / 599))) by lra; nra). pose proof (Rabs_pos (M / (10 / 599))).
  assert (E : (1 / 10 ^ 13 * Rabs (10 / 599) + 2 / 10 ^ 18 * Rabs M) / (Rabs (10 / 599) * (Rabs (10 / 599) - 2 / 10 ^ 18)) <= 1 / 10 ^ 11).
  { rewrite (Rabs_pos_eq (10 / 599)) by lra. apply div_le; nra. }
  assert (E' : 0 <= (1 / 10 ^ 13 * Rabs (10 / 599) + 2 / 10 ^ 18 * Rabs M) / (Rabs (10 / 599) * (Rabs (10 / 599) - 2 / 10 ^ 18))).
  { rewrite (Rabs_pos_eq (10 / 599)) by lra. apply Rdiv_pos; nra. }
  eapply app_weaken; [apply (app_div _ _ _ _ _ _ A2 (step_app lm)); [rewrite Rabs_pos_eq; lra|lra]|].
  set (w := (_ / (Rabs (10 / 599) * _))) in *. set (y := Rabs (M / (10 / 599))) in *. clearbody w y. unfold u. lra.
Qed.

Lemma gval_shift s d : Rabs d <= 2 / 10 ^ 11 -> Rabs (gval 600 (-3) 7 (s + d) - gval 600 (-3) 7 s) <= 2 / 10 ^ 12 * gval 600 (-3) 7 s.
Proof.
  intros H. pose proof LN10_bounds as LB. unfold gval. rewrite gstep600. replace (LN10_ * (-3 + (s + d) * (10 / 599))) with (LN10_ * (-3 + s * (10 / 599)) + LN10_ * (10 / 599) * d) by ring.
  rewrite exp_plus. set (g := exp _). pose proof (exp_pos (LN10_ * (-3 + s * (10 / 599)))) as P. fold g in P. 
  replace (g * exp (LN10_ * (10 / 599) * d) - g) with (g * (exp (LN10_ * (10 / 599) * d) - 1)) by ring. rewrite Rabs_mult, (Rabs_pos_eq g) by lra.
  assert (D : Rabs (LN10_ * (10 / 599) * d) <= 8 / 10 ^ 13). { rewrite Rabs_mult, (Rabs_pos_eq (LN10_ * (10 / 599))) by nra. pose proof (Rabs_pos d). nra. }
  assert (D' : Rabs (LN10_ * (10 / 599) * d) <= 1 / 2) by lra. pose proof (exp_near _ D') as N. rewrite Rmult_comm. apply Rmult_le_compat_r; [lra|]. clearbody g. lra.
Qed.

(** For every finite double v: below the grid the lookup returns -1, from the last energy on 599; in between, up to a relative distance of
    1e-11 from the last energy, it returns an index of the array whose energy is at most v (to 1e-11) and whose next energy is above v.
    Within 1e-11 of the last energy the result can be out of bounds: [C19_binary64_refuted]. *)
Theorem C19_binary64 lm v : accurate lm -> fin v ->
  (val v < val (energyF lm 0) -> et_index (N:=NumF lm) (tableF lm) v = Ok (-1)%Z) /\
  (val (energyF lm 599) <= val v -> et_index (N:=NumF lm) (tableF lm) v = Ok 599%Z) /\
  (val (energyF lm 0) <= val v < val (energyF lm 599) * (1 - 1 / 10 ^ 11) ->
     exists i, et_index (N:=NumF lm) (tableF lm) v = Ok (Z.of_nat i) /\ (i <= 598)%nat /\
       val (energyF lm i) * (1 - 1 / 10 ^ 11) <= val v < val (energyF lm (S i))).
Proof.
  intros AC FV. pose proof AC as [EX LG]. pose proof (energyF_bounds lm 0 EX ltac:(lia)) as (F0 & P0 & B0). pose proof (energyF_bounds lm 599 EX ltac:(lia)) as (F9 & P9 & B9).
  assert (INC : val (energyF lm 0) < val (energyF lm 599)).
  { assert (energy 0 * (1 + 38 / 1000) <= energy 599); [|nra]. eapply Rle_trans; [apply (energy_step 0); lia|]. rewrite !energy_G by lia. apply gval_le; [apply n600|apply l600|apply le_INR; lia]. }
  destruct (minus_eps lm 599 EX ltac:(lia)) as (FE9 & BE9).
  unfold et_index. change (et_n (tableF lm)) with 600%nat. change (Z.of_nat 600 - 1)%Z with 599%Z. rewrite (agetF lm 0), (agetF lm 599) by lia. cbn [bind].
  rewrite step_nonzero, orb_false_r. change (Z.to_nat 0) with 0%nat. change (Z.to_nat 599) with 599%nat.
  cbn [fltb fleb fsub fdiv flog ffloor fto_int NumF].
  pose proof (ltb_val v (energyF lm 0) FV F0) as C0. pose proof (leb_val _ v FE9 FV) as C9.
  split; [|split].
  - intros H. destruct C0 as [_C|_C]; [reflexivity|contradiction].
  - intros H. destruct C0 as [_C|_C]; [exfalso; lra|]. destruct C9 as [_D|_D]; [reflexivity|exfalso; lra].
  - intros [H1 H2]. destruct C0 as [_C|_C]; [exfalso; lra|]. clear _C. destruct C9 as [_D|_D]; [exfalso; lra|]. clear _D BE9 FE9.
    pose proof (energy_high 599 ltac:(lia)) as HI. pose proof (energy_low 0 ltac:(lia)) as LO.
    assert (V9 : val v < 10 ^ 9) by (clear - H2 B9 HI P9; nra). destruct (position_app lm v AC FV (conj H1 V9)) as [FP AP].
    change (lm_log lm (v / energyF lm 0) / LN10_ (N:=NumF lm) / et_step (tableF lm))%float with (positionF lm v).
    set (t := positionF lm v) in *. set (pos := pos_of 600 (-3) 7 (val v)) in *.
    assert (VP : 0 < val v) by lra. pose proof (gval_pos_of 600 (-3) 7 ltac:(apply n600) ltac:(apply l600) (val v) VP) as GP. fold pos in GP. clearbody pos.
    assert (AP' := AP). apply Rabs_le_inv in AP'.
    assert (POS0 : - (1 / 2) < pos).
    { apply (gval_lt_inj 600 (-3) 7 ltac:(apply n600) ltac:(apply l600)). rewrite GP.
      apply Rlt_le_trans with (val (energyF lm 0)); [|exact H1]. eapply Rlt_le_trans; [|apply B0]. rewrite energy_G by lia. cbn [INR].
      assert (G0 : G600 0 = gval 600 (-3) 7 (- (1 / 2)) * exp (LN10_ * (5 / 599))) by (unfold gval; rewrite gstep600, <- exp_plus; f_equal; field).
      pose proof (gval_pos 600 (-3) 7 (- (1 / 2))) as G1. pose proof (exp_ineq1_le (LN10_ * (5 / 599))) as EL. pose proof LN10_bounds.
      rewrite G0. set (g := gval 600 (-3) 7 (- (1 / 2))) in *. match goal with |- _ < g * ?e * _ => set (x := e) in * end. assert (X : 1 + 1 / 100 <= x) by lra. clear - G1 X. clearbody g x. nra. }
    assert (POS9 : pos < 599 - 1 / 10 ^ 10).
    { apply (gval_lt_inj 600 (-3) 7 ltac:(apply n600) ltac:(apply l600)). rewrite GP. eapply Rlt_trans; [exact H2|]. 
      rewrite (energy_G 599) in B9, P9 by lia. replace (INR 599) with 599 in B9, P9 by (rewrite INR_IZR_INZ; reflexivity).
      unfold gval at 1. rewrite gstep600. replace (LN10_ * (-3 + (599 - 1 / 10 ^ 10) * (10 / 599))) with (LN10_ * (-3 + 599 * (10 / 599)) + - (LN10_ * (10 / 599) / 10 ^ 10)) by field.
      rewrite exp_plus. replace (exp (LN10_ * (-3 + 599 * (10 / 599)))) with (gval 600 (-3) 7 599) by (unfold gval; now rewrite gstep600).
      pose proof (exp_ineq1_le (- (LN10_ * (10 / 599) / 10 ^ 10))) as EL. pose proof LN10_bounds. set (g := gval 600 (-3) 7 599) in *. match goal with |- _ < g * ?e => set (x := e) in * end. assert (X : 1 - 4 / 10 ^ 12 <= x) by lra.
      assert (GX : g * (1 - 4 / 10 ^ 12) <= g * x) by (apply Rmult_le_compat_l; [left; exact P9|exact X]). clear - B9 P9 GX. clearbody g x. lra. }
    set (i := Zfloor (val t)) in *. pose proof (Zfloor_lb (val t)) as FL. pose proof (Zfloor_ub (val t)) as FU. fold i in FL, FU.
    assert (I0 : (-2 < i)%Z) by (apply lt_IZR; lra). assert (I1 : (i < 599)%Z) by (apply lt_IZR; lra).
    rewrite (F_floor_int t FP) by (fold i; lia). fold i. cbn [cast bind]. rewrite (agetF lm (i + 1)) by lia. cbn [bind].
    destruct (minus_eps lm (Z.to_nat (i + 1)) EX ltac:(lia)) as (FE & BE). pose proof (leb_val _ v FE FV) as CI.
    destruct (energyF_bounds lm (Z.to_nat (i + 1)) EX ltac:(lia)) as (FI & PI & BI).
    destruct CI as [K|K].
    + (* the next index *)
      exists (Z.to_nat (i + 1)). rewrite Z2Nat.id by lia. split; [reflexivity|].
      assert (J : (i + 1 <> 599)%Z). { intros E. rewrite E in *. change (Z.to_nat 599) with 599%nat in *. lra. }
      split; [lia|]. split; [lra|].
      assert (UP : val v <= gval 600 (-3) 7 (IZR (i + 1) + 2 / 10 ^ 11)).
      { rewrite <- GP. apply gval_le; [apply n600|apply l600|]. rewrite plus_IZR. lra. }
      pose proof (gval_shift (IZR (i + 1)) (2 / 10 ^ 11) ltac:(rewrite Rabs_pos_eq; lra)) as SH. apply Rabs_le_inv in SH.
      destruct (energyF_bounds lm (S (Z.to_nat (i + 1))) EX ltac:(lia)) as (_ & _ & BS). pose proof (energy_step (Z.to_nat (i + 1)) ltac:(lia)) as ST.
      assert (EG : energy (Z.to_nat (i + 1)) = gval 600 (-3) 7 (IZR (i + 1))). { rewrite energy_G by lia. unfold G600. f_equal. rewrite INR_IZR_INZ, Z2Nat.id by lia. reflexivity. }
      rewrite <- EG in SH. nra.
    + (* the index itself *)
      assert (J : (i <> -1)%Z). { intros E. rewrite E in *. change (Z.to_nat (-1 + 1)) with 0%nat in *. apply K. lra. }
      exists (Z.to_nat i). rewrite Z2Nat.id by lia. split; [reflexivity|]. split; [lia|]. replace (S (Z.to_nat i)) with (Z.to_nat (i + 1)) by lia. split; [|lra].
      assert (LW : gval 600 (-3) 7 (IZR i + - (2 / 10 ^ 11)) <= val v). { rewrite <- GP. apply gval_le; [apply n600|apply l600|]. lra. }
      pose proof (gval_shift (IZR i) (- (2 / 10 ^ 11)) ltac:(rewrite Rabs_Ropp, Rabs_pos_eq; lra)) as SH. apply Rabs_le_inv in SH.
      destruct (energyF_bounds lm (Z.to_nat i) EX ltac:(lia)) as (_ & PJ & BJ).
      assert (EG : energy (Z.to_nat i) = gval 600 (-3) 7 (IZR i)). { rewrite energy_G by lia. unfold G600. f_equal. rewrite INR_IZR_INZ, Z2Nat.id by lia. reflexivity. }
      rewrite <- EG in SH. nra.
Qed.
Print Assumptions C19_binary64.

(** the correctly rounded library meets the hypotheses *)
Example C19_binary64_case : accurate rounded_libm /\ fin 1%float /\ val (energyF rounded_libm 0) <= val 1%float < val (energyF rounded_libm 599) * (1 - 1 / 10 ^ 11).
Proof.
  pose proof rounded_accurate as AC. split; [exact AC|]. split; [apply fin_SF; vm_compute; exact I|].
  assert (V1 : val 1%float = 1). { rewrite val_SF. vm_compute Prim2SF. cbn [SFR Z.leb Z.compare Z.opp Z.pow Z.pow_pos Pos.iter Z.mul Pos.mul]. lra. }
  rewrite V1. destruct AC as [EX _]. destruct (energyF_bounds _ 0 EX ltac:(lia)) as (_ & P0 & B0). destruct (energyF_bounds _ 599 EX ltac:(lia)) as (_ & P9 & B9).
  pose proof LN10_bounds as LB. rewrite energy_G in B0, P0 by lia. rewrite energy_G in B9, P9 by lia. replace (INR 599) with 599 in B9, P9 by (rewrite INR_IZR_INZ; reflexivity). cbn [INR] in B0, P0.
  assert (LO : G600 0 * 7 <= 1).
  { unfold gval. rewrite gstep600. replace (LN10_ * (-3 + 0 * (10 / 599))) with (- (LN10_ * 3)) by ring. pose proof (exp_ineq1_le (LN10_ * 3)) as E. rewrite exp_Ropp.
    apply Rmult_le_reg_l with (exp (LN10_ * 3)); [apply exp_pos|]. rewrite <- Rmult_assoc, Rinv_r by (apply Rgt_not_eq, exp_pos). lra. }
  assert (HI : 10 <= G600 599).
  { unfold gval. rewrite gstep600. replace (LN10_ * (-3 + 599 * (10 / 599))) with (LN10_ * 7) by field. pose proof (exp_ineq1_le (LN10_ * 7)). lra. }
  lra.
Qed.
