(** * The grid of the Lindhard tables in binary64, and interpolation in them (C25) *)
From Flocq Require Import Core.
From Coq Require Import ZArith Reals List Bool Lra Lia Floats SpecFloat.
From Verif Require Import Num NumR NumF Structures EnergyTable Spline Calculations GridProofs InterpProofs BoundsProofs TotalProofs PropGrid PropTables Binary64 Binary64Num Binary64Lit PropGridFloat DataLSa DataLSahi DataLSXa DataLSXahi.
Import ListNotations.
Local Open Scope R_scope.

Lemma l200 : (0 < 7)%R. Proof. lra. Qed.
Lemma n200 : (2 <= 200)%nat. Proof. lia. Qed.
(** the real grid *)
Definition lsR (i : nat) : R := nth i (et_values (ls_energy_table (F:=R))) 0.
Lemma lsR_G i : (i < 200)%nat -> lsR i = gval 200 0 7 (INR i).
Proof. intros H. unfold lsR. rewrite ls_table_eq. apply nth_error_nth. now apply et_nth. Qed.
Lemma lsR_pos i : (i < 200)%nat -> 0 < lsR i. Proof. intros I. rewrite lsR_G by lia. apply gval_pos. Qed.
Lemma zero_app lm : app (lit (Num:=NumF lm) 0) 0 0.
Proof. closed_double (lit (Num:=NumF lm) 0); lra. Qed.

(** the double grid *)
Definition lsF (lm : Libm) : EnergyTable float := ls_energy_table (N := NumF lm).
Definition lsE (lm : Libm) (i : nat) : float := nth i (et_values (lsF lm)) 0%float.
Lemma ls_step_app lm : app (et_step (lsF lm)) (7 / 199) (4 / 10 ^ 18).
Proof. closed_double (et_step (lsF lm)). lra. Qed.
Lemma lsE_eq lm i : (i < 200)%nat -> lsE lm i = lm_exp lm (LN10_ (N:=NumF lm) * (lit (Num:=NumF lm) 0 + F_of_Z (Z.of_nat i) * et_step (lsF lm)))%float.
Proof.
  intros H. unfold lsE. change (et_values (lsF lm)) with (map (et_point (N:=NumF lm) (lit (Num:=NumF lm) 0) (et_step (lsF lm))) (seq 0 200)).
  rewrite nth_indep with (d' := et_point (N:=NumF lm) (lit (Num:=NumF lm) 0) (et_step (lsF lm)) 0) by (rewrite map_length, seq_length; exact H).
  rewrite map_nth, seq_nth by exact H. reflexivity.
Qed.

(** the argument of exp is right to 2e-14, for any index below 200 *)
Lemma ls_argument_app lm i : (i < 200)%nat ->
  app (LN10_ (N:=NumF lm) * (lit (Num:=NumF lm) 0 + F_of_Z (Z.of_nat i) * et_step (lsF lm)))%float (LN10_ * (0 + INR i * (7 / 199))) (2 / 10 ^ 14).
Proof.
  intros H. assert (I0 : 0 <= INR i <= 199). { split; [apply pos_INR|]. replace 199 with (INR 199) by (rewrite INR_IZR_INZ; reflexivity). apply le_INR. lia. }
  pose proof tiny_le as TL. pose proof tiny_pos as TP. pose proof big_ge as BG. pose proof LN10_bounds as LB.
  assert (A1 : app (F_of_Z (Z.of_nat i)) (INR i) 0).
  { destruct (F_of_Z_val (Z.of_nat i) ltac:(lia)) as [F V]. split; [exact F|]. rewrite V, <- INR_IZR_INZ. replace (INR i - INR i) with 0 by ring. rewrite Rabs_R0. lra. }
  assert (A2 : app (F_of_Z (Z.of_nat i) * et_step (lsF lm))%float (INR i * (7 / 199)) (3 / 10 ^ 15)).
  { eapply app_weaken; [apply (app_mul _ _ _ _ _ _ A1 (ls_step_app lm))|]; rewrite ?(Rabs_pos_eq (INR i)), ?(Rabs_pos_eq (7 / 199)), ?(Rabs_pos_eq (INR i * (7 / 199))) by nra; unfold u; nra. }
  assert (B : Rabs (0 + INR i * (7 / 199)) <= 7) by (apply Rabs_le; lra). pose proof (Rabs_pos (0 + INR i * (7 / 199))) as BP.
  assert (A3 : app (lit (Num:=NumF lm) 0 + F_of_Z (Z.of_nat i) * et_step (lsF lm))%float (0 + INR i * (7 / 199)) (4 / 10 ^ 15)).
  { eapply app_weaken; [apply (app_add _ _ _ _ _ _ (zero_app lm) A2); lra|]. 
    set (r := Rabs _) in *. clearbody r. unfold u. lra. }
  eapply app_weaken; [apply (app_mul _ _ _ _ _ _ (LN10_app lm) A3)|]; rewrite Rabs_mult, (Rabs_pos_eq LN10_) by lra; set (r := Rabs (0 + INR i * (7 / 199))) in *; clearbody r; unfold u; nra.
Qed.

Lemma gstep200 : gstep 200 0 7 = 7 / 199.
Proof. unfold gstep. replace (INR 200) with 200 by (rewrite INR_IZR_INZ; reflexivity). lra. Qed.

(** ** Every grid energy is right to 3e-14, whatever the last two bits of exp *)
Theorem C25_binary64_grid lm : exp_accurate lm -> length (et_values (lsF lm)) = 200%nat /\
  forall i, (i < 200)%nat -> fin (lsE lm i) /\ Rabs (val (lsE lm i) - lsR i) <= 3 / 10 ^ 14 * lsR i.
Proof.
  intros EX. split.
  { change (et_values (lsF lm)) with (map (et_point (N:=NumF lm) (lit (Num:=NumF lm) 0) (et_step (lsF lm))) (seq 0 200)). now rewrite map_length, seq_length. }
  intros i H. rewrite lsE_eq by exact H. destruct (ls_argument_app lm i H) as [F A]. set (x := (LN10_ (N:=NumF lm) * _)%float) in *.
  rewrite lsR_G by exact H. unfold gval. rewrite gstep200. set (r := LN10_ * (0 + INR i * (7 / 199))) in *. 
  assert (I0 : 0 <= INR i <= 199). { split; [apply pos_INR|]. replace 199 with (INR 199) by (rewrite INR_IZR_INZ; reflexivity). apply le_INR. lia. }
  pose proof LN10_bounds as LB. assert (RB : -700 < r - 1 /\ r + 1 < 700) by (unfold r; nra). clearbody r.
  pose proof A as A'. apply Rabs_le_inv in A'. destruct (EX x F ltac:(lra)) as [F' E]. split; [exact F'|].
  set (d := val x - r) in *. assert (VE : exp (val x) = exp r * exp d) by (rewrite <- exp_plus; f_equal; unfold d; ring). rewrite VE in E. pose proof (exp_near d ltac:(lra)) as N. pose proof (exp_pos r) as P.
  apply Rabs_le_inv in N. apply Rabs_le_inv in E. assert (D1 : 1 - 4 / 10 ^ 14 <= exp d <= 1 + 4 / 10 ^ 14) by lra.
  assert (N' : Rabs (exp d - 1) <= 2 * Rabs d) by (apply exp_near; lra).
  (* exp d - 1 lies between d and d/(1-d) *)
  assert (D2 : 1 - 21 / 10 ^ 15 <= exp d <= 1 + 21 / 10 ^ 15).
  { pose proof (exp_ineq1_le d) as L. pose proof (exp_ineq1_le (- d)) as L'. rewrite exp_Ropp in L'. pose proof (exp_pos d) as Pd.
    assert (U : exp d * (1 - d) <= 1). { apply Rmult_le_reg_r with (/ exp d); [now apply Rinv_0_lt_compat|]. replace (exp d * (1 - d) * / exp d) with (1 - d) by (field; lra). lra. }
    clearbody d. split; [lra|]. clear - U A' D1. nra. }
  clear N N' A A' D1. set (X := val _) in *. set (e := exp d) in *. set (g := exp r) in *. clearbody X e g d. unfold u in E. apply Rabs_le. nra.
Qed.
Print Assumptions C25_binary64_grid.

Lemma lsE_bounds lm i : exp_accurate lm -> (i < 200)%nat -> fin (lsE lm i) /\ 0 < lsR i /\
  lsR i * (1 - 3 / 10 ^ 14) <= val (lsE lm i) <= lsR i * (1 + 3 / 10 ^ 14).
Proof.
  intros EX H. destruct (C25_binary64_grid lm EX) as [_ G]. destruct (G i H) as [F A]. split; [exact F|]. split; [now apply lsR_pos|]. apply Rabs_le_inv in A. lra.
Qed.
Lemma lsR_step i : (S i < 200)%nat -> lsR i * (1 + 38 / 1000) <= lsR (S i).
Proof.
  intros H. rewrite !lsR_G by lia. unfold gval. rewrite gstep200, S_INR. replace (LN10_ * (0 + (INR i + 1) * (7 / 199))) with (LN10_ * (0 + INR i * (7 / 199)) + LN10_ * (7 / 199)) by ring.
  rewrite exp_plus. apply Rmult_le_compat_l; [left; apply exp_pos|]. pose proof (exp_ineq1_le (LN10_ * (7 / 199))). pose proof LN10_bounds. lra.
Qed.

(** so the array is strictly increasing, with the ratio of neighbours above 1.037 *)
Theorem C25_binary64_increasing lm i : exp_accurate lm -> (S i < 200)%nat ->
  0 < val (lsE lm i) /\ val (lsE lm i) * 1.037 < val (lsE lm (S i)).
Proof.
  intros EX H. destruct (lsE_bounds lm i EX ltac:(lia)) as (_ & P & B). destruct (lsE_bounds lm (S i) EX ltac:(lia)) as (_ & _ & B').
  pose proof (lsR_step i H). replace 1.037 with (1037 / 1000) by lra. nra.
Qed.
Print Assumptions C25_binary64_increasing.

Lemma ls_agetF lm i : (0 <= i < 200)%Z -> aget (et_values (lsF lm)) i = Ok (lsE lm (Z.to_nat i)).
Proof.
  intros H. apply aget_ok. split; [lia|]. unfold lsE. apply nth_error_nth'.
  change (et_values (lsF lm)) with (map (et_point (N:=NumF lm) (lit (Num:=NumF lm) 0) (et_step (lsF lm))) (seq 0 200)). rewrite map_length, seq_length. lia.
Qed.
Lemma ls_step_nonzero lm : feqb (Num:=NumF lm) (et_step (lsF lm)) (lit (Num:=NumF lm) 0.0) = false.
Proof. vm_compute. reflexivity. Qed.

Lemma lsR_low i : (i < 200)%nat -> / 2187 < lsR i.
Proof.
  intros H. rewrite lsR_G by exact H. eapply Rlt_le_trans; [|apply (gval_le 200 0 7 n200 l200 0); apply pos_INR]. unfold gval. replace (LN10_ * (0 + 0 * gstep 200 0 7)) with 0 by ring. rewrite exp_0. lra.
Qed.
Lemma lsR_high i : (i < 200)%nat -> lsR i < 10 ^ 9.
Proof.
  intros H. rewrite lsR_G by exact H. unfold gval. rewrite gstep200.
  assert (I0 : 0 <= INR i <= 199). { split; [apply pos_INR|]. replace 199 with (INR 199) by (rewrite INR_IZR_INZ; reflexivity). apply le_INR. lia. }
  pose proof LN10_bounds as LB. apply Rlt_le_trans with (exp (INR 17 * 1)). { apply exp_increasing. replace (INR 17) with 17 by (rewrite INR_IZR_INZ; reflexivity). nra. }
  rewrite exp_INR. apply Rle_trans with (3 ^ 17); [|lra]. apply pow_incr. split; [left; apply exp_pos|apply exp_le_3].
Qed.

(** the value minus the tolerance, rounded *)
Lemma ls_minus_eps lm i : exp_accurate lm -> (i < 200)%nat ->
  fin (lsE lm i - numeric_epsilon (N:=NumF lm))%float /\
  val (lsE lm i) * (1 - 6 / 10 ^ 12) <= val (lsE lm i - numeric_epsilon (N:=NumF lm))%float <= val (lsE lm i).
Proof.
  intros EX H. destruct (lsE_bounds lm i EX H) as (F & P & B). destruct (eps_app lm) as [FE AE]. pose proof tiny_le as TL. pose proof tiny_pos as TP. pose proof big_ge as BG.
  assert (VE : val (numeric_epsilon (N:=NumF lm)) = 10 / 4503599627370496). { apply Rabs_le_inv in AE. lra. } clear AE.
  pose proof (lsR_low i H) as LO. pose proof (lsR_high i H) as HI.
  assert (D : 0 < val (lsE lm i) - 10 / 4503599627370496 <= 10 ^ 10) by lra.
  destruct (sub_val _ _ F FE) as [FS VS]; [rewrite VE, Rabs_pos_eq; lra|]. split; [exact FS|]. rewrite VS, VE.
  split.
  - pose proof (rnd_error (val (lsE lm i) - 10 / 4503599627370496)) as Q. rewrite (Rabs_pos_eq (val _ - _)) in Q by lra. apply Rabs_le_inv in Q. unfold u in Q.
    set (e := val (lsE lm i)) in *. clearbody e. lra.
  - rewrite <- (rnd_val (lsE lm i)) at 2. apply rnd_le. lra.
Qed.



(** the position of v computed in binary64 *)
Definition ls_positionF (lm : Libm) (v : float) : float := (lm_log lm (v / lsE lm 0) / LN10_ (N:=NumF lm) / et_step (lsF lm))%float.
Lemma ls_position_app lm v : accurate lm -> fin v -> val (lsE lm 0) <= val v < 10 ^ 9 ->
  app (ls_positionF lm v) (pos_of 200 0 7 (val v)) (2 / 10 ^ 11).
Proof.
  intros [EX LG] FV [V0 V1]. destruct (lsE_bounds lm 0 EX ltac:(lia)) as (F0 & P0 & B0). pose proof (lsR_low 0 ltac:(lia)) as L0.
  pose proof tiny_le as TL. pose proof tiny_pos as TP. pose proof big_ge as BG. pose proof LN10_bounds as LB. 
  assert (G0 : gfirst 200 0 7 = lsR 0) by (rewrite lsR_G by lia; reflexivity).
  unfold ls_positionF, pos_of. rewrite gstep200, G0. set (e0 := val (lsE lm 0)) in *. set (g0 := lsR 0) in *. clearbody g0.
  assert (E0 : / 2188 < e0) by nra. clear L0.
  (* the quotient *)
  assert (R1 : 1 <= val v / e0 <= 3 * 10 ^ 12).
  { split; apply Rmult_le_reg_r with e0; try lra; unfold Rdiv; rewrite Rmult_assoc, Rinv_l by lra; nra. }
  destruct (div_val v (lsE lm 0) FV) as [FQ VQ]; [fold e0; lra|fold e0; rewrite Rabs_pos_eq; lra|]. fold e0 in VQ.
  set (q := (v / lsE lm 0)%float) in *. set (r := val v / e0) in *.
  assert (QE : Rabs (val q - r) <= 2 * u * r).
  { rewrite VQ. eapply Rle_trans; [apply rnd_relative; rewrite Rabs_pos_eq by lra; pose proof small_le; lra|]. rewrite Rabs_pos_eq by lra. unfold u. nra. }
  assert (RP : 0 < r) by lra. assert (QP : 0 < val q) by (apply Rabs_le_inv in QE; unfold u in QE; nra).
  assert (LQ : Rabs (ln (val q) - ln r) <= 4 * u).
  { rewrite <- ln_div by lra. replace (val q / r) with (1 + (val q - r) / r) by (field; lra).
    assert (D : Rabs ((val q - r) / r) <= 2 * u).
    { unfold Rdiv. rewrite Rabs_mult, Rabs_inv, (Rabs_pos_eq r) by lra. apply Rmult_le_reg_r with r; [lra|]. rewrite Rmult_assoc, Rinv_l by lra. lra. }
    eapply Rle_trans; [apply ln_near; unfold u in D |- *; lra|]. lra. }
  (* the reference v / g0 *)
  assert (LR : Rabs (ln r - ln (val v / g0)) <= 6 / 10 ^ 14).
  { rewrite <- ln_div by (try lra; apply Rdiv_lt_0_compat; lra). replace (r / (val v / g0)) with (g0 / e0) by (unfold r; field; lra). 
    replace (g0 / e0) with (/ (1 + (e0 - g0) / g0)) by (field; lra). rewrite ln_Rinv, Rabs_Ropp.
    2: { replace (1 + (e0 - g0) / g0) with (e0 / g0) by (field; lra). apply Rdiv_lt_0_compat; lra. }
    assert (D : Rabs ((e0 - g0) / g0) <= 3 / 10 ^ 14).
    { unfold Rdiv at 1. rewrite Rabs_mult, Rabs_inv, (Rabs_pos_eq g0) by lra. apply Rmult_le_reg_r with g0; [lra|]. rewrite Rmult_assoc, Rinv_l by lra. rewrite Rmult_1_r. apply Rabs_le. lra. }
    eapply Rle_trans; [apply ln_near; lra|]. lra. }
  assert (LB1 : 0 <= ln r <= 36).
  { split; [rewrite <- ln_1; apply ln_le; lra|]. rewrite <- (ln_exp 36). apply ln_le; [lra|]. eapply Rle_trans; [apply R1|].
    replace 36 with (INR 36 * 1) by (rewrite INR_IZR_INZ; cbn; lra). rewrite exp_INR. apply Rle_trans with ((9 / 4) ^ 36); [lra|].
    apply pow_incr. split; [lra|apply exp_1_ge]. }
  destruct (LG q FQ QP) as [FL VL].
  assert (A1 : app (lm_log lm q) (ln (val v / g0)) (2 / 10 ^ 13)).
  { split; [exact FL|]. apply Rabs_le_inv in VL, LQ, LR. assert (AQ : Rabs (ln (val q)) <= 37) by (apply Rabs_le; unfold u in LQ; lra). pose proof (Rabs_pos (ln (val q))).
    apply Rabs_le. unfold u in *. set (w := Rabs (ln (val q))) in *. clearbody w. lra. }
  assert (AB : Rabs (ln (val v / g0)) <= 37) by (apply Rabs_le; apply Rabs_le_inv in LR; lra). pose proof (Rabs_pos (ln (val v / g0))) as AP. 
  set (L := ln (val v / g0)) in *. clearbody L.
  assert (I1 : 43 / 100 <= / LN10_ <= 44 / 100).
  { split; apply Rmult_le_reg_r with LN10_; try lra; rewrite Rinv_l by lra; lra. }
  assert (A2 : app (lm_log lm q / LN10_ (N:=NumF lm))%float (L / LN10_) (1 / 10 ^ 13)).
  { assert (LL : Rabs (L / LN10_) <= 17) by (unfold Rdiv; rewrite Rabs_mult, (Rabs_pos_eq (/ LN10_)) by lra; nra). pose proof (Rabs_pos (L / LN10_)).
    assert (E : (2 / 10 ^ 13 * Rabs LN10_ + 3 / 10 ^ 16 * Rabs L) / (Rabs LN10_ * (Rabs LN10_ - 3 / 10 ^ 16)) <= 95 / 10 ^ 15).
    { rewrite (Rabs_pos_eq LN10_) by lra. apply div_le; nra. }
    assert (E' : 0 <= (2 / 10 ^ 13 * Rabs LN10_ + 3 / 10 ^ 16 * Rabs L) / (Rabs LN10_ * (Rabs LN10_ - 3 / 10 ^ 16))).
    { rewrite (Rabs_pos_eq LN10_) by lra. apply Rdiv_pos; nra. }
    eapply app_weaken; [apply (app_div _ _ _ _ _ _ A1 (LN10_app lm)); [rewrite Rabs_pos_eq; lra|lra]|].
    set (w := (_ / (Rabs LN10_ * _))) in *. set (y := Rabs (L / LN10_)) in *. clearbody w y. unfold u. lra. }
  assert (LL : Rabs (L / LN10_) <= 17) by (unfold Rdiv; rewrite Rabs_mult, (Rabs_pos_eq (/ LN10_)) by lra; nra). pose proof (Rabs_pos (L / LN10_)) as LP.
  set (M := L / LN10_) in *. clearbody M.
  assert (MM : Rabs (M / (7 / 199)) <= 1100) by (unfold Rdiv at 1; rewrite Rabs_mult, (Rabs_pos_eq (/ (7 / 199))) by lra; nra). pose proof (Rabs_pos (M / (7 / 199))).
  assert (E : (1 / 10 ^ 13 * Rabs (7 / 199) + 4 / 10 ^ 18 * Rabs M) / (Rabs (7 / 199) * (Rabs (7 / 199) - 4 / 10 ^ 18)) <= 1 / 10 ^ 11).
  { rewrite (Rabs_pos_eq (7 / 199)) by lra. apply div_le; nra. }
  assert (E' : 0 <= (1 / 10 ^ 13 * Rabs (7 / 199) + 4 / 10 ^ 18 * Rabs M) / (Rabs (7 / 199) * (Rabs (7 / 199) - 4 / 10 ^ 18))).
  { rewrite (Rabs_pos_eq (7 / 199)) by lra. apply Rdiv_pos; nra. }
  eapply app_weaken; [apply (app_div _ _ _ _ _ _ A2 (ls_step_app lm)); [rewrite Rabs_pos_eq; lra|lra]|].
  set (w := (_ / (Rabs (7 / 199) * _))) in *. set (y := Rabs (M / (7 / 199))) in *. clearbody w y. unfold u. lra.
Qed.

Lemma ls_gval_shift s d : Rabs d <= 2 / 10 ^ 11 -> Rabs (gval 200 0 7 (s + d) - gval 200 0 7 s) <= 4 / 10 ^ 12 * gval 200 0 7 s.
Proof.
  intros H. pose proof LN10_bounds as LB. unfold gval. rewrite gstep200. replace (LN10_ * (0 + (s + d) * (7 / 199))) with (LN10_ * (0 + s * (7 / 199)) + LN10_ * (7 / 199) * d) by ring.
  rewrite exp_plus. set (g := exp _). pose proof (exp_pos (LN10_ * (0 + s * (7 / 199)))) as P. fold g in P. 
  replace (g * exp (LN10_ * (7 / 199) * d) - g) with (g * (exp (LN10_ * (7 / 199) * d) - 1)) by ring. rewrite Rabs_mult, (Rabs_pos_eq g) by lra.
  assert (D : Rabs (LN10_ * (7 / 199) * d) <= 17 / 10 ^ 13). { rewrite Rabs_mult, (Rabs_pos_eq (LN10_ * (7 / 199))) by nra. pose proof (Rabs_pos d). nra. }
  assert (D' : Rabs (LN10_ * (7 / 199) * d) <= 1 / 2) by lra. pose proof (exp_near _ D') as N. rewrite Rmult_comm. apply Rmult_le_compat_r; [lra|]. clearbody g. lra.
Qed.

(** For every finite double v: below the grid the lookup returns -1, from the last energy on 199; in between, up to a relative distance of
    1e-11 from the last energy, it returns an index of the array whose lsR is at most v (to 1e-11) and whose next lsR is above v.
    The margin is needed as in [C19_binary64_refuted]. *)
Theorem C25_binary64_index lm v : accurate lm -> fin v ->
  (val v < val (lsE lm 0) -> et_index (N:=NumF lm) (lsF lm) v = Ok (-1)%Z) /\
  (val (lsE lm 199) <= val v -> et_index (N:=NumF lm) (lsF lm) v = Ok 199%Z) /\
  (val (lsE lm 0) <= val v < val (lsE lm 199) * (1 - 1 / 10 ^ 11) ->
     exists i, et_index (N:=NumF lm) (lsF lm) v = Ok (Z.of_nat i) /\ (i <= 198)%nat /\
       val (lsE lm i) * (1 - 1 / 10 ^ 11) <= val v < val (lsE lm (S i))).
Proof.
  intros AC FV. pose proof AC as [EX LG]. pose proof (lsE_bounds lm 0 EX ltac:(lia)) as (F0 & P0 & B0). pose proof (lsE_bounds lm 199 EX ltac:(lia)) as (F9 & P9 & B9).
  assert (INC : val (lsE lm 0) < val (lsE lm 199)).
  { assert (lsR 0 * (1 + 38 / 1000) <= lsR 199); [|nra]. eapply Rle_trans; [apply (lsR_step 0); lia|]. rewrite !lsR_G by lia. apply gval_le; [apply n200|apply l200|apply le_INR; lia]. }
  destruct (ls_minus_eps lm 199 EX ltac:(lia)) as (FE9 & BE9).
  unfold et_index. change (et_n (lsF lm)) with 200%nat. change (Z.of_nat 200 - 1)%Z with 199%Z. rewrite (ls_agetF lm 0), (ls_agetF lm 199) by lia. cbn [bind].
  rewrite ls_step_nonzero, orb_false_r. change (Z.to_nat 0) with 0%nat. change (Z.to_nat 199) with 199%nat.
  cbn [fltb fleb fsub fdiv flog ffloor fto_int NumF].
  pose proof (ltb_val v (lsE lm 0) FV F0) as C0. pose proof (leb_val _ v FE9 FV) as C9.
  split; [|split].
  - intros H. destruct C0 as [_C|_C]; [reflexivity|contradiction].
  - intros H. destruct C0 as [_C|_C]; [exfalso; lra|]. destruct C9 as [_D|_D]; [reflexivity|exfalso; lra].
  - intros [H1 H2]. destruct C0 as [_C|_C]; [exfalso; lra|]. clear _C. destruct C9 as [_D|_D]; [exfalso; lra|]. clear _D BE9 FE9.
    pose proof (lsR_high 199 ltac:(lia)) as HI. pose proof (lsR_low 0 ltac:(lia)) as LO.
    assert (V9 : val v < 10 ^ 9) by (clear - H2 B9 HI P9; nra). destruct (ls_position_app lm v AC FV (conj H1 V9)) as [FP AP].
    change (lm_log lm (v / lsE lm 0) / LN10_ (N:=NumF lm) / et_step (lsF lm))%float with (ls_positionF lm v).
    set (t := ls_positionF lm v) in *. set (pos := pos_of 200 0 7 (val v)) in *.
    assert (VP : 0 < val v) by lra. pose proof (gval_pos_of 200 0 7 ltac:(apply n200) ltac:(apply l200) (val v) VP) as GP. fold pos in GP. clearbody pos.
    assert (AP' := AP). apply Rabs_le_inv in AP'.
    assert (POS0 : - (1 / 2) < pos).
    { apply (gval_lt_inj 200 0 7 ltac:(apply n200) ltac:(apply l200)). rewrite GP.
      apply Rlt_le_trans with (val (lsE lm 0)); [|exact H1]. eapply Rlt_le_trans; [|apply B0]. rewrite lsR_G by lia. cbn [INR].
      assert (G0 : (gval 200 0 7) 0 = gval 200 0 7 (- (1 / 2)) * exp (LN10_ * (7 / 398))) by (unfold gval; rewrite gstep200, <- exp_plus; f_equal; field).
      pose proof (gval_pos 200 0 7 (- (1 / 2))) as G1. pose proof (exp_ineq1_le (LN10_ * (7 / 398))) as EL. pose proof LN10_bounds.
      rewrite G0. set (g := gval 200 0 7 (- (1 / 2))) in *. match goal with |- _ < g * ?e * _ => set (x := e) in * end. assert (X : 1 + 1 / 100 <= x) by lra. clear - G1 X. clearbody g x. nra. }
    assert (POS9 : pos < 199 - 1 / 10 ^ 10).
    { apply (gval_lt_inj 200 0 7 ltac:(apply n200) ltac:(apply l200)). rewrite GP. eapply Rlt_trans; [exact H2|]. 
      rewrite (lsR_G 199) in B9, P9 by lia. replace (INR 199) with 199 in B9, P9 by (rewrite INR_IZR_INZ; reflexivity).
      unfold gval at 1. rewrite gstep200. replace (LN10_ * (0 + (199 - 1 / 10 ^ 10) * (7 / 199))) with (LN10_ * (0 + 199 * (7 / 199)) + - (LN10_ * (7 / 199) / 10 ^ 10)) by field.
      rewrite exp_plus. replace (exp (LN10_ * (0 + 199 * (7 / 199)))) with (gval 200 0 7 199) by (unfold gval; now rewrite gstep200).
      pose proof (exp_ineq1_le (- (LN10_ * (7 / 199) / 10 ^ 10))) as EL. pose proof LN10_bounds. set (g := gval 200 0 7 199) in *. match goal with |- _ < g * ?e => set (x := e) in * end. assert (X : 1 - 9 / 10 ^ 12 <= x) by lra.
      assert (GX : g * (1 - 9 / 10 ^ 12) <= g * x) by (apply Rmult_le_compat_l; [left; exact P9|exact X]). clear - B9 P9 GX. clearbody g x. lra. }
    set (i := Zfloor (val t)) in *. pose proof (Zfloor_lb (val t)) as FL. pose proof (Zfloor_ub (val t)) as FU. fold i in FL, FU.
    assert (I0 : (-2 < i)%Z) by (apply lt_IZR; lra). assert (I1 : (i < 199)%Z) by (apply lt_IZR; lra).
    rewrite (F_floor_int t FP) by (fold i; lia). fold i. cbn [cast bind]. rewrite (ls_agetF lm (i + 1)) by lia. cbn [bind].
    destruct (ls_minus_eps lm (Z.to_nat (i + 1)) EX ltac:(lia)) as (FE & BE). pose proof (leb_val _ v FE FV) as CI.
    destruct (lsE_bounds lm (Z.to_nat (i + 1)) EX ltac:(lia)) as (FI & PI & BI).
    destruct CI as [K|K].
    + (* the next index *)
      exists (Z.to_nat (i + 1)). rewrite Z2Nat.id by lia. split; [reflexivity|].
      assert (J : (i + 1 <> 199)%Z). { intros E. rewrite E in *. change (Z.to_nat 199) with 199%nat in *. lra. }
      split; [lia|]. split; [lra|].
      assert (UP : val v <= gval 200 0 7 (IZR (i + 1) + 2 / 10 ^ 11)).
      { rewrite <- GP. apply gval_le; [apply n200|apply l200|]. rewrite plus_IZR. lra. }
      pose proof (ls_gval_shift (IZR (i + 1)) (2 / 10 ^ 11) ltac:(rewrite Rabs_pos_eq; lra)) as SH. apply Rabs_le_inv in SH.
      destruct (lsE_bounds lm (S (Z.to_nat (i + 1))) EX ltac:(lia)) as (_ & _ & BS). pose proof (lsR_step (Z.to_nat (i + 1)) ltac:(lia)) as ST.
      assert (EG : lsR (Z.to_nat (i + 1)) = gval 200 0 7 (IZR (i + 1))). { rewrite lsR_G by lia. f_equal. rewrite INR_IZR_INZ, Z2Nat.id by lia. reflexivity. }
      rewrite <- EG in SH. nra.
    + (* the index itself *)
      assert (J : (i <> -1)%Z). { intros E. rewrite E in *. change (Z.to_nat (-1 + 1)) with 0%nat in *. apply K. lra. }
      exists (Z.to_nat i). rewrite Z2Nat.id by lia. split; [reflexivity|]. split; [lia|]. replace (S (Z.to_nat i)) with (Z.to_nat (i + 1)) by lia. split; [|lra].
      assert (LW : gval 200 0 7 (IZR i + - (2 / 10 ^ 11)) <= val v). { rewrite <- GP. apply gval_le; [apply n200|apply l200|]. lra. }
      pose proof (ls_gval_shift (IZR i) (- (2 / 10 ^ 11)) ltac:(rewrite Rabs_Ropp, Rabs_pos_eq; lra)) as SH. apply Rabs_le_inv in SH.
      destruct (lsE_bounds lm (Z.to_nat i) EX ltac:(lia)) as (_ & PJ & BJ).
      assert (EG : lsR (Z.to_nat i) = gval 200 0 7 (IZR i)). { rewrite lsR_G by lia. f_equal. rewrite INR_IZR_INZ, Z2Nat.id by lia. reflexivity. }
      rewrite <- EG in SH. nra.
Qed.
Print Assumptions C25_binary64_index.


(** ** The interpolation between two points *)
Lemma interp_near (a b v y z : float) : fin a -> fin b -> fin v -> fin y -> fin z ->
  1 / 1000 <= val b - val a <= 10 ^ 15 -> Rabs (val v - val a) <= val b - val a ->
  Rabs (val y) <= 10 ^ 25 -> Rabs (val z) <= 10 ^ 25 ->
  let s := (val v - val a) / (val b - val a) in
  let x := (1 - (v - a) / (b - a))%float in
  app (x * y + (1 - x) * z)%float ((1 - s) * val y + s * val z) (16 * u * (Rabs (val y) + Rabs (val z)) + 4 * tiny).
Proof.
  intros FA FB FV FY FZ D VA BY BZ s x. pose proof tiny_le as TL. pose proof tiny_pos as TP. pose proof big_ge as BG.
  set (d := val b - val a) in *. set (n := val v - val a) in *. assert (DP : 0 < d) by lra. assert (AD : Rabs d = d) by (apply Rabs_pos_eq; lra). pose proof (Rabs_pos n) as NP.
  pose proof (app_exact a FA) as Aa. pose proof (app_exact b FB) as Ab. pose proof (app_exact v FV) as Av. pose proof (app_exact y FY) as Ay. pose proof (app_exact z FZ) as Az.
  assert (TU : tiny <= u * d / 100) by (unfold u; lra).
  assert (An : app (v - a) n (102 / 100 * u * d)).
  { eapply app_weaken; [apply (app_sub _ _ _ _ _ _ Av Aa); fold n; lra|]. fold n. unfold u in *. nra. }
  assert (Al : app (b - a) d (102 / 100 * u * d)).
  { eapply app_weaken; [apply (app_sub _ _ _ _ _ _ Ab Aa); fold d; lra|]. fold d. unfold u in *. nra. }
  assert (SB : Rabs s <= 1). { unfold s, Rdiv. rewrite Rabs_mult, Rabs_inv, AD. apply Rmult_le_reg_r with d; [lra|]. rewrite Rmult_assoc, Rinv_l by lra. lra. }
  assert (Aq : app ((v - a) / (b - a)) s (31 / 10 * u)).
  { assert (E : (102 / 100 * u * d * Rabs d + 102 / 100 * u * d * Rabs n) / (Rabs d * (Rabs d - 102 / 100 * u * d)) <= 206 / 100 * u).
    { rewrite AD. apply div_le; unfold u in *; [nra|]. assert (d * Rabs n <= d * d) by nra. assert (0 < d * d) by nra. nra. }
    assert (E' : 0 <= (102 / 100 * u * d * Rabs d + 102 / 100 * u * d * Rabs n) / (Rabs d * (Rabs d - 102 / 100 * u * d))).
    { rewrite AD. apply Rdiv_pos; unfold u in *; nra. }
    eapply app_weaken; [apply (app_div _ _ _ _ _ _ An Al); [rewrite AD; unfold u; lra|fold s; unfold u in *; lra]|]. fold s. set (w := (_ / (Rabs d * _))) in *. clearbody w. unfold u in *. lra. }
  assert (A1 : app 1%float 1 0). { closed_double 1%float; lra. }
  assert (S1 : Rabs (1 - s) <= 2) by (apply Rabs_le; apply Rabs_le_inv in SB; lra). pose proof (Rabs_pos (1 - s)). pose proof (Rabs_pos s).
  assert (Ax : app x (1 - s) (52 / 10 * u)).
  { unfold x. eapply app_weaken; [apply (app_sub _ _ _ _ _ _ A1 Aq); unfold u; lra|]. unfold u. lra. }
  assert (Ax' : app (1 - x) s (63 / 10 * u)).
  { replace s with (1 - (1 - s)) by ring. eapply app_weaken; [apply (app_sub _ _ _ _ _ _ A1 Ax); replace (1 - (1 - s)) with s by ring; unfold u; lra|]. replace (1 - (1 - s)) with s by ring. unfold u. lra. }
  pose proof (Rabs_pos (val y)) as YP. pose proof (Rabs_pos (val z)) as ZP.
  set (Y := Rabs (val y)) in *. set (Z0 := Rabs (val z)) in *.
  assert (M1 : Rabs ((1 - s) * val y) <= 2 * Y) by (rewrite Rabs_mult; fold Y; nra). assert (M2 : Rabs (s * val z) <= Z0) by (rewrite Rabs_mult; fold Z0; nra).
  pose proof (Rabs_pos ((1 - s) * val y)). pose proof (Rabs_pos (s * val z)).
  assert (P1 : app (x * y) ((1 - s) * val y) (73 / 10 * u * Y + tiny)).
  { eapply app_weaken; [apply (app_mul _ _ _ _ _ _ Ax Ay); fold Y; unfold u; lra|]. fold Y. unfold u. lra. }
  assert (P2 : app ((1 - x) * z) (s * val z) (74 / 10 * u * Z0 + tiny)).
  { eapply app_weaken; [apply (app_mul _ _ _ _ _ _ Ax' Az); fold Z0; unfold u; lra|]. fold Z0. unfold u. lra. }
  assert (M3 : Rabs ((1 - s) * val y + s * val z) <= 2 * Y + Z0) by (eapply Rle_trans; [apply Rabs_triang|]; lra). pose proof (Rabs_pos ((1 - s) * val y + s * val z)).
  eapply app_weaken; [apply (app_add _ _ _ _ _ _ P1 P2); unfold u; lra|]. unfold u. lra.
Qed.
(** at the left point the result is the tabulated value *)
Lemma interp_left (a b v y z : float) : fin a -> fin b -> fin v -> fin y -> fin z -> val v = val a -> 1 / 1000 <= val b - val a <= 10 ^ 15 -> Rabs (val y) <= 10 ^ 25 ->
  let x := (1 - (v - a) / (b - a))%float in fin (x * y + (1 - x) * z)%float /\ val (x * y + (1 - x) * z)%float = val y.
Proof.
  intros FA FB FV FY FZ E D BY x. pose proof big_ge as BG. pose proof tiny_le as TL. pose proof tiny_pos as TP.
  assert (A1 : fin 1%float /\ val 1%float = 1). { assert (A : app 1%float 1 0) by (closed_double 1%float; lra). destruct A as [F A]. split; [exact F|]. apply Rabs_le_inv in A. lra. } destruct A1 as [F1 V1].
  assert (R1 : rnd 1 = 1) by (rewrite <- V1; apply rnd_val).
  destruct (sub_val v a FV FA) as [Fn Vn]; [rewrite E, Rminus_diag_eq, Rabs_R0 by reflexivity; lra|]. rewrite E, Rminus_diag_eq, rnd_0 in Vn by reflexivity.
  destruct (sub_val b a FB FA) as [Fl Vl]; [rewrite Rabs_pos_eq; lra|].
  assert (Ln : val (b - a)%float <> 0). { rewrite Vl. pose proof (rnd_error (val b - val a)) as Q. rewrite (Rabs_pos_eq (val b - val a)) in Q by lra. apply Rabs_le_inv in Q. unfold u in Q. lra. }
  destruct (div_val (v - a)%float (b - a)%float Fn Ln) as [Fq Vq]; [rewrite Vn; unfold Rdiv; rewrite Rmult_0_l, Rabs_R0; lra|]. rewrite Vn in Vq. unfold Rdiv in Vq. rewrite Rmult_0_l, rnd_0 in Vq.
  destruct (sub_val 1%float ((v - a) / (b - a))%float F1 Fq) as [Fx Vx]; [rewrite V1, Vq, Rminus_0_r, Rabs_R1; lra|]. fold x in Fx, Vx. rewrite V1, Vq, Rminus_0_r, R1 in Vx.
  destruct (sub_val 1%float x F1 Fx) as [Fw Vw]; [rewrite V1, Vx, Rminus_diag_eq, Rabs_R0 by reflexivity; lra|]. rewrite V1, Vx, Rminus_diag_eq, rnd_0 in Vw by reflexivity.
  destruct (mul_val x y Fx FY) as [Fp Vp]; [rewrite Vx, Rmult_1_l; lra|]. rewrite Vx, Rmult_1_l, rnd_val in Vp.
  destruct (mul_val (1 - x)%float z Fw FZ) as [Fr Vr]; [rewrite Vw, Rmult_0_l, Rabs_R0; lra|]. rewrite Vw, Rmult_0_l, rnd_0 in Vr.
  destruct (add_val _ _ Fp Fr) as [Fs Vs]; [rewrite Vp, Vr, Rplus_0_r; lra|]. split; [exact Fs|]. rewrite Vs, Vp, Vr, Rplus_0_r. apply rnd_val.
Qed.

(** ** C25: interpolation in a table of 200 doubles.
    Outside the energies the result is 0; at the last energy it is the last value; at every other energy it is the tabulated value.
    In between, up to 1e-11 from the last energy, it is within 16 roundings of the straight line through two neighbouring points,
    evaluated at a relative position between -3e-10 and 1. *)
Theorem C25_binary64 lm v (y : Z -> outcome float) (Y : nat -> float) : accurate lm -> fin v ->
  (forall i, (i < 200)%nat -> y (Z.of_nat i) = Ok (Y i) /\ fin (Y i) /\ Rabs (val (Y i)) <= 10 ^ 25) ->
  let res := et_interpolate (N:=NumF lm) (lsF lm) v y in
  (val v < val (lsE lm 0) \/ val (lsE lm 199) < val v -> res = Ok 0%float) /\
  (val v = val (lsE lm 199) -> res = Ok (Y 199%nat)) /\
  (forall i, (i < 199)%nat -> val v = val (lsE lm i) -> exists r, res = Ok r /\ fin r /\ val r = val (Y i)) /\
  (val (lsE lm 0) <= val v < val (lsE lm 199) * (1 - 1 / 10 ^ 11) ->
     exists i r s, (i <= 198)%nat /\ res = Ok r /\ fin r /\ val v = val (lsE lm i) + s * (val (lsE lm (S i)) - val (lsE lm i)) /\ - (3 / 10 ^ 10) <= s < 1 /\
       Rabs (val r - ((1 - s) * val (Y i) + s * val (Y (S i)))) <= 16 * u * (Rabs (val (Y i)) + Rabs (val (Y (S i)))) + 4 * tiny).
Proof.
  intros AC FV HY res. pose proof AC as [EX LG].
  pose proof (lsE_bounds lm 0 EX ltac:(lia)) as (F0 & P0 & B0). pose proof (lsE_bounds lm 199 EX ltac:(lia)) as (F9 & P9 & B9).
  assert (MONO : forall i j, (i <= j < 200)%nat -> lsR i <= lsR j). { intros i j H. rewrite !lsR_G by lia. apply gval_le; [apply n200|apply l200|apply le_INR; lia]. }
  assert (STEP : forall i, (i <= 198)%nat -> fin (lsE lm i) /\ fin (lsE lm (S i)) /\ 1 / 1000 <= val (lsE lm (S i)) - val (lsE lm i) <= 10 ^ 15 /\ 37 / 1000 * val (lsE lm i) <= val (lsE lm (S i)) - val (lsE lm i) /\ 1 / 2 < val (lsE lm i)).
  { intros i H. destruct (lsE_bounds lm i EX ltac:(lia)) as (Fi & Pi & Bi). destruct (lsE_bounds lm (S i) EX ltac:(lia)) as (Fj & Pj & Bj).
    pose proof (lsR_step i ltac:(lia)). pose proof (lsR_high (S i) ltac:(lia)). assert (1 <= lsR i). { eapply Rle_trans; [|apply (MONO 0%nat i); lia]. rewrite lsR_G by lia. cbn [INR]. unfold gval. replace (LN10_ * (0 + 0 * gstep 200 0 7)) with 0 by ring. rewrite exp_0. lra. }
    split; [exact Fi|]. split; [exact Fj|]. split; [split; nra|]. split; nra. }
  assert (OUT : res = if (v <? lsE lm 0)%float || (lsE lm 199 <? v)%float then Ok 0%float else if (v =? lsE lm 199)%float then Ok (Y 199%nat) else
     i <- et_index (N:=NumF lm) (lsF lm) v ;; xi1 <- aget (et_values (lsF lm)) (i + 1) ;; xi <- aget (et_values (lsF lm)) i ;;
      let linstep := (xi1 - xi)%float in
      if (linstep =? 0)%float then Ok xi else let x := (1 - (v - xi) / linstep)%float in
        yi <- y i ;; yi1 <- y (i + 1)%Z ;; Ok (x * yi + (1 - x) * yi1)%float).
  { unfold res, et_interpolate. change (et_n (lsF lm)) with 200%nat. change (Z.of_nat 200 - 1)%Z with 199%Z. rewrite (ls_agetF lm 0), (ls_agetF lm 199) by lia. cbn [bind fltb feqb NumF].
    change (Z.to_nat 0) with 0%nat. change (Z.to_nat 199) with 199%nat. change 199%Z with (Z.of_nat 199) at 1. rewrite (proj1 (HY 199%nat ltac:(lia))).
    replace (lit (Num:=NumF lm) 0.0) with 0%float by (vm_compute; reflexivity). replace (lit (Num:=NumF lm) 1.0) with 1%float by (vm_compute; reflexivity). replace (lit (Num:=NumF lm) 1) with 1%float by (vm_compute; reflexivity). reflexivity. }
  assert (IN : forall i, (i <= 198)%nat -> val (lsE lm 0) <= val v < val (lsE lm 199) -> et_index (N:=NumF lm) (lsF lm) v = Ok (Z.of_nat i) ->
     res = Ok (let x := (1 - (v - lsE lm i) / (lsE lm (S i) - lsE lm i))%float in (x * Y i + (1 - x) * Y (S i))%float)).
  { intros i H [H1 H2] IX. rewrite OUT, IX. cbn [bind].
    destruct (ltb_val v (lsE lm 0) FV F0) as [Q|_]; [exfalso; lra|]. destruct (ltb_val (lsE lm 199) v F9 FV) as [Q|_]; [exfalso; lra|]. cbn [orb].
    destruct (eqb_val v (lsE lm 199) FV F9) as [Q|_]; [exfalso; lra|].
    rewrite (ls_agetF lm (Z.of_nat i + 1)), (ls_agetF lm (Z.of_nat i)) by lia. cbn [bind]. rewrite Nat2Z.id. replace (Z.to_nat (Z.of_nat i + 1)) with (S i) by lia.
    destruct (STEP i H) as (Fi & Fj & [D D'] & _). destruct (sub_val _ _ Fj Fi) as [FL VL]. { pose proof big_ge. rewrite Rabs_pos_eq; lra. }
    assert (FO : fin 0%float /\ val 0%float = 0). { split; [apply fin_SF; vm_compute; exact I|rewrite val_SF; vm_compute Prim2SF; reflexivity]. } destruct FO as [FO VO].
    destruct (eqb_val _ _ FL FO) as [Q|_].
    { exfalso. rewrite VL, VO in Q. pose proof tiny_le. pose proof (rnd_error (val (lsE lm (S i)) - val (lsE lm i))) as E. rewrite (Rabs_pos_eq (val (lsE lm (S i)) - _)) in E by lra. apply Rabs_le_inv in E. unfold u in E. lra. }
    replace (Z.of_nat i + 1)%Z with (Z.of_nat (S i)) by lia. rewrite (proj1 (HY i ltac:(lia))), (proj1 (HY (S i) ltac:(lia))). reflexivity. }
  clearbody res. split; [|split; [|split]].
  - intros H. rewrite OUT. destruct (ltb_val v (lsE lm 0) FV F0) as [_|Q]; [reflexivity|]. destruct (ltb_val (lsE lm 199) v F9 FV) as [_|Q']; [reflexivity|exfalso; lra].
  - intros H. assert (lsR 0 * (1 + 38 / 1000) <= lsR 199) by (eapply Rle_trans; [apply (lsR_step 0); lia|apply MONO; lia]).
    rewrite OUT. destruct (ltb_val v (lsE lm 0) FV F0) as [Q|_]; [exfalso; rewrite H in Q; nra|]. destruct (ltb_val (lsE lm 199) v F9 FV) as [Q|_]; [exfalso; lra|]. destruct (eqb_val v (lsE lm 199) FV F9) as [_|Q]; [reflexivity|contradiction].
  - intros i H E. destruct (STEP i ltac:(lia)) as (Fi & Fj & D & D2 & D3). destruct (lsE_bounds lm i EX ltac:(lia)) as (_ & Pi & Bi). destruct (lsE_bounds lm (S i) EX ltac:(lia)) as (_ & Pj & Bj).
    assert (V1 : val (lsE lm 0) <= val v).
    { rewrite E. destruct i as [|i]; [lra|]. pose proof (lsR_step 0 ltac:(lia)) as S0. pose proof (MONO 1%nat (S i) ltac:(lia)) as S1. clear - S0 S1 B0 P0 Bi. nra. }
    assert (V2 : val v < val (lsE lm 199) * (1 - 1 / 10 ^ 11)).
    { rewrite E. pose proof (lsR_step i ltac:(lia)) as S0. pose proof (MONO (S i) 199%nat ltac:(lia)) as S1. clear - S0 S1 Bi Pi B9 P9. nra. }
    destruct (proj2 (proj2 (C25_binary64_index lm v AC FV)) (conj V1 V2)) as (j & IX & J & L1 & L2).
    assert (EJ : j = i).
    { destruct (Nat.lt_trichotomy j i) as [Q|[Q|Q]]; [exfalso| exact Q|exfalso].
      - assert (M : val (lsE lm (S j)) <= val (lsE lm i)); [|lra]. assert (Q' : S j = i \/ (S (S j) <= i)%nat) by lia. destruct Q' as [<-|Q']; [lra|].
        destruct (lsE_bounds lm (S j) EX ltac:(lia)) as (_ & Pk & Bk). pose proof (lsR_step (S j) ltac:(lia)) as S0. pose proof (MONO (S (S j)) i ltac:(lia)) as S1. clear - S0 S1 Bk Pk Bi. nra.
      - destruct (lsE_bounds lm j EX ltac:(lia)) as (_ & Pk & Bk). pose proof (lsR_step i ltac:(lia)) as S0. pose proof (MONO (S i) j ltac:(lia)) as S1. rewrite E in L1. clear - L1 S0 S1 Bk Pk Bi Pi. nra. }
    subst j. eexists. split; [apply (IN i ltac:(lia)); [split; [exact V1|]|exact IX]|].
    { clear - V2 P9 B9. nra. }
    destruct (HY i ltac:(lia)) as (_ & Fy & By). destruct (HY (S i) ltac:(lia)) as (_ & Fz & _).
    apply (interp_left (lsE lm i) (lsE lm (S i)) v (Y i) (Y (S i)) Fi Fj FV Fy Fz E D By).
  - intros [V1 V2]. destruct (proj2 (proj2 (C25_binary64_index lm v AC FV)) (conj V1 V2)) as (i & IX & J & L1 & L2).
    destruct (STEP i J) as (Fi & Fj & D & D2 & D3). destruct (HY i ltac:(lia)) as (_ & Fy & By). destruct (HY (S i) ltac:(lia)) as (_ & Fz & Bz).
    set (a := val (lsE lm i)) in *. set (b := val (lsE lm (S i))) in *.
    assert (SB : - (3 / 10 ^ 10) <= (val v - a) / (b - a) < 1).
    { split; apply Rmult_le_reg_r with (b - a) || apply Rmult_lt_reg_r with (b - a); try lra; unfold Rdiv; rewrite Rmult_assoc, Rinv_l by lra; lra. }
    destruct (interp_near (lsE lm i) (lsE lm (S i)) v (Y i) (Y (S i)) Fi Fj FV Fy Fz D) as [Fr Ar]; [fold a b; apply Rabs_le; lra|exact By|exact Bz|]. fold a b in Ar.
    exists i. eexists. exists ((val v - a) / (b - a)). split; [exact J|]. split; [apply (IN i J); [split; [exact V1|]|exact IX]|].
    { clear - V2 P9 B9. nra. }
    split; [exact Fr|]. split; [fold a b; clearbody a b; field; lra|]. split; [exact SB|exact Ar].
Qed.
Print Assumptions C25_binary64.

(** ** The four tables of the library *)
Definition entry_small (d : dec) : bool := match d with Dec m e => (e <=? 0)%Z && (Z.abs m <=? 1000000000000000)%Z end.
Lemma entry_small_bound d : entry_small d = true -> Rabs (Rlit d) <= 10 ^ 15.
Proof.
  destruct d as [m e]. unfold entry_small, Rlit. intros H. apply andb_prop in H. destruct H as [H1 H2]. apply Z.leb_le in H1, H2. apply IZR_le in H2. rewrite abs_IZR in H2.
  destruct e as [|p|p]; [rewrite Z.mul_1_r; lra|lia|].
  assert (Q : 1 <= IZR (10 ^ Zpos p)) by (apply IZR_le; pose proof (Z.pow_pos_nonneg 10 (Zpos p) ltac:(lia) ltac:(lia)); lia).
  unfold Rdiv. rewrite Rabs_mult, Rabs_inv, (Rabs_pos_eq (IZR (10 ^ _))) by lra. pose proof (Rabs_pos (IZR m)). apply Rle_trans with (Rabs (IZR m)); [|lra].
  rewrite <- (Rmult_1_r (Rabs (IZR m))) at 2. apply Rmult_le_compat_l; [lra|]. rewrite <- Rinv_1. apply Rinv_le_contravar; lra.
Qed.
Definition table_fine (t : list (list dec)) : bool := forallb (fun r => Nat.eqb (length r) 200 && forallb entry_small r) t.
Lemma tables_fine : forallb table_fine [ls_coefficients_a; ls_coefficients_ahi; ls_X_coefficients_a; ls_X_coefficients_ahi] = true.
Proof. vm_compute. reflexivity. Qed.
Lemma entry_ok tab z i : table_fine tab = true -> (z < length tab)%nat -> (i < 200)%nat ->
  length (nth z tab []) = 200%nat /\ Rabs (Rlit (nth i (nth z tab []) (Dec 0 0))) <= 10 ^ 15.
Proof.
  intros T Z1 I1. unfold table_fine in T. rewrite forallb_forall in T. specialize (T (nth z tab []) (nth_In _ _ Z1)). apply andb_prop in T. destruct T as [L T]. apply Nat.eqb_eq in L. split; [exact L|].
  apply entry_small_bound. rewrite forallb_forall in T. apply T. apply nth_In. lia.
Qed.

(** For every row of the four tables and every finite energy, against the decimal numbers printed in the sources. *)
Theorem C25_tables_binary64 lm tab z v : accurate lm -> fin v ->
  In tab [ls_coefficients_a; ls_coefficients_ahi; ls_X_coefficients_a; ls_X_coefficients_ahi] -> (z < length tab)%nat ->
  let entry i := Rlit (nth i (nth z tab []) (Dec 0 0)) in
  let res := ls_lookup (N:=NumF lm) tab (Z.of_nat z) v in
  (val v < val (lsE lm 0) \/ val (lsE lm 199) < val v -> res = Ok 0%float) /\
  (forall i, (i < 200)%nat -> val v = val (lsE lm i) -> exists r, res = Ok r /\ fin r /\ val r = rnd (entry i)) /\
  (val (lsE lm 0) <= val v < val (lsE lm 199) * (1 - 1 / 10 ^ 11) ->
     exists i r s, (i <= 198)%nat /\ res = Ok r /\ fin r /\ val v = val (lsE lm i) + s * (val (lsE lm (S i)) - val (lsE lm i)) /\ - (3 / 10 ^ 10) <= s < 1 /\
       Rabs (val r - ((1 - s) * entry i + s * entry (S i))) <= 19 * u * (Rabs (entry i) + Rabs (entry (S i))) + 8 * tiny).
Proof.
  intros AC FV T Z1 entry res.
  assert (TF : table_fine tab = true) by (pose proof tables_fine as Q; rewrite forallb_forall in Q; now apply Q).
  assert (EB : forall i, (i < 200)%nat -> Rabs (entry i) <= 10 ^ 15) by (intros i I1; now apply entry_ok).
  pose proof big_ge as BG. pose proof tiny_le as TL. pose proof tiny_pos as TP.
  assert (LE : forall i, (i < 200)%nat -> fin (F_lit (nth i (nth z tab []) (Dec 0 0))) /\ val (F_lit (nth i (nth z tab []) (Dec 0 0))) = rnd (entry i)).
  { intros i I1. apply F_lit_val. pose proof (EB i I1) as Q. unfold entry in Q. lra. }
  assert (RB : forall i, (i < 200)%nat -> Rabs (rnd (entry i) - entry i) <= u * Rabs (entry i) + tiny) by (intros i _; apply rnd_error).
  set (y := fun i => omap (lit (Num:=NumF lm)) (aget (nth z tab []) i)).
  assert (RES : res = et_interpolate (N:=NumF lm) (lsF lm) v y).
  { unfold res, ls_lookup. replace (aget tab (Z.of_nat z)) with (Ok (nth z tab [])); [reflexivity|]. symmetry. apply aget_ok. split; [lia|]. rewrite Nat2Z.id. now apply nth_error_nth'. }
  destruct (C25_binary64 lm v y (fun i => F_lit (nth i (nth z tab []) (Dec 0 0))) AC FV) as (G1 & G2 & G3 & G4).
  { intros i I1. destruct (entry_ok tab z i TF Z1 I1) as [L _]. destruct (LE i I1) as [F V]. split; [|split; [exact F|]].
    - unfold y. replace (aget (nth z tab []) (Z.of_nat i)) with (Ok (nth i (nth z tab []) (Dec 0 0))); [reflexivity|]. symmetry. apply aget_ok. split; [lia|]. rewrite Nat2Z.id. apply nth_error_nth'. lia.
    - rewrite V. pose proof (RB i I1) as Q. pose proof (EB i I1) as Q'. replace (rnd (entry i)) with ((rnd (entry i) - entry i) + entry i) by ring. eapply Rle_trans; [apply Rabs_triang|]. unfold u in Q. lra. }
  rewrite <- RES in *. clearbody res. clear RES. split; [exact G1|]. split.
  - intros i I1 E. destruct (Nat.eq_dec i 199) as [->|NE].
    + eexists. split; [apply G2, E|]. apply LE. lia.
    + destruct (G3 i ltac:(lia) E) as (r & R1 & R2 & R3). exists r. split; [exact R1|]. split; [exact R2|]. rewrite R3. apply LE. lia.
  - intros H. destruct (G4 H) as (i & r & s & I1 & R1 & R2 & S1 & S2 & B). cbv beta in B. exists i, r, s. split; [exact I1|]. split; [exact R1|]. split; [exact R2|]. split; [exact S1|]. split; [exact S2|].
    rewrite !(fun j Hj => proj2 (LE j Hj)) in B by lia. pose proof (RB i ltac:(lia)) as Q1. pose proof (RB (S i) ltac:(lia)) as Q2.
    set (e1 := entry i) in *. set (e2 := entry (S i)) in *. set (d1 := rnd e1 - e1) in *. set (d2 := rnd e2 - e2) in *.
    assert (A1 : Rabs (rnd e1) <= Rabs e1 + Rabs d1) by (replace (rnd e1) with (e1 + d1) by (unfold d1; ring); apply Rabs_triang).
    assert (A2 : Rabs (rnd e2) <= Rabs e2 + Rabs d2) by (replace (rnd e2) with (e2 + d2) by (unfold d2; ring); apply Rabs_triang).
    replace (val r - ((1 - s) * e1 + s * e2)) with ((val r - ((1 - s) * rnd e1 + s * rnd e2)) + ((1 - s) * d1 + s * d2)) by (unfold d1, d2; ring).
    eapply Rle_trans; [apply Rabs_triang|]. assert (A3 : Rabs ((1 - s) * d1 + s * d2) <= 2 * Rabs d1 + Rabs d2).
    { eapply Rle_trans; [apply Rabs_triang|]. rewrite !Rabs_mult. assert (Rabs (1 - s) <= 2) by (apply Rabs_le; lra). assert (Rabs s <= 1) by (apply Rabs_le; lra). pose proof (Rabs_pos d1). pose proof (Rabs_pos d2). nra. }
    set (w := val r - ((1 - s) * rnd e1 + s * rnd e2)) in *. clearbody w d1 d2. pose proof (Rabs_pos e1). pose proof (Rabs_pos e2). unfold u in *. lra.
Qed.
Print Assumptions C25_tables_binary64.

(** carbon (row 5) at 100 MeV/u, with the correctly rounded library *)
Example C25_tables_binary64_case : accurate rounded_libm /\ fin 100%float /\ (5 < length ls_coefficients_a)%nat /\
  val (lsE rounded_libm 0) <= val 100%float < val (lsE rounded_libm 199) * (1 - 1 / 10 ^ 11) /\ nth 3 (nth 5 ls_coefficients_a []) (Dec 0 0) <> Dec 0 0.
Proof.
  pose proof rounded_accurate as AC. split; [exact AC|]. split; [apply fin_SF; vm_compute; exact I|]. split; [vm_compute; lia|].
  assert (V1 : val 100%float = 100). { rewrite val_SF. vm_compute Prim2SF. cbn [SFR Z.leb Z.compare Z.opp Z.pow Z.pow_pos Pos.iter Z.mul Pos.mul]. lra. }
  split; [|vm_compute; discriminate].
  rewrite V1. destruct AC as [EX _]. destruct (lsE_bounds _ 0 EX ltac:(lia)) as (_ & P0 & B0). destruct (lsE_bounds _ 199 EX ltac:(lia)) as (_ & P9 & B9).
  pose proof LN10_bounds as LB. rewrite lsR_G in B0, P0 by lia. rewrite lsR_G in B9, P9 by lia. replace (INR 199) with 199 in B9, P9 by (rewrite INR_IZR_INZ; reflexivity). cbn [INR] in B0, P0.
  assert (LO : gval 200 0 7 0 = 1) by (unfold gval; replace (LN10_ * (0 + 0 * gstep 200 0 7)) with 0 by ring; apply exp_0).
  assert (HI : 200 <= gval 200 0 7 199).
  { unfold gval. rewrite gstep200. apply Rle_trans with (exp (INR 16 * 1)). { rewrite exp_INR. apply Rle_trans with ((9 / 4) ^ 16); [lra|]. apply pow_incr. split; [lra|apply exp_1_ge]. }
    assert (Q : INR 16 * 1 <= LN10_ * (0 + 199 * (7 / 199))) by (replace (INR 16) with 16 by (rewrite INR_IZR_INZ; reflexivity); lra). destruct Q as [Q|Q]; [left; now apply exp_increasing|rewrite Q; lra]. }
  lra.
Qed.

(** ** The margin is needed: at 1e7 MeV/u the element behind the last energy is read, if libm rounds
    exp(16.11809565095832) to 10000000.000000006 and log(1e7) to 16.11809565095832, the correctly rounded values *)
Definition ls_rounds_like (lm : Libm) : Prop :=
  lm_exp lm 0%float = 1%float /\ lm_exp lm 0x1.01e3b843eaa73p4%float = 0x1.312d000000003p23%float /\ lm_log lm 10000000%float = 0x1.01e3b843eaa73p4%float.

Theorem C25_binary64_refuted :
  exists v : float, v = 10000000%float /\ (exists lm, ls_rounds_like lm) /\
    forall lm, ls_rounds_like lm -> val (lsE lm 0) <= val v < val (lsE lm 199) /\
      (forall y, et_interpolate (N:=NumF lm) (lsF lm) v y = UB OutOfBounds) /\
      forall p, pT p = v -> (exists z, fto_int (Num:=NumF lm) (pZ p) = Some z /\ (1 <= z <= 108)%Z) ->
        precalculated_lindhard (N:=NumF lm) p = UB OutOfBounds /\ precalculated_lindhard_X (N:=NumF lm) p = UB OutOfBounds.
Proof.
  exists 10000000%float. split; [reflexivity|]. split.
  { exists (Build_Libm (fun x => if PrimFloat.eqb x 0 then 1%float else 0x1.312d000000003p23%float) (fun _ => 0x1.01e3b843eaa73p4%float) (fun x => x) (fun x => x) (fun x _ => x)).
    split; [vm_compute; reflexivity|]. split; vm_compute; reflexivity. }
  intros lm (E0 & E1 & L). set (v := 10000000%float).
  assert (P0 : lsE lm 0 = 1%float). { rewrite lsE_eq by lia. rewrite <- E0. f_equal. }
  assert (P9 : lsE lm 199 = 0x1.312d000000003p23%float). { rewrite lsE_eq by lia. rewrite <- E1. f_equal. }
  assert (C1 : (v <? 1)%float = false) by (vm_compute; reflexivity). assert (C2 : (0x1.312d000000003p23 <? v)%float = false) by (vm_compute; reflexivity). assert (C3 : (v =? 0x1.312d000000003p23)%float = false) by (vm_compute; reflexivity).
  assert (FV : fin v) by (apply fin_SF; vm_compute; exact I). assert (F1 : fin 1%float) by (apply fin_SF; vm_compute; exact I). assert (F9 : fin 0x1.312d000000003p23%float) by (apply fin_SF; vm_compute; exact I).
  assert (IX : et_index (N:=NumF lm) (lsF lm) v = UB OutOfBounds).
  { unfold et_index. change (et_n (lsF lm)) with 200%nat. change (Z.of_nat 200 - 1)%Z with 199%Z. rewrite (ls_agetF lm 0), (ls_agetF lm 199) by lia. cbn [bind]. change (Z.to_nat 0) with 0%nat. change (Z.to_nat 199) with 199%nat.
    rewrite P0, P9, ls_step_nonzero, orb_false_r. cbn [fltb fleb fsub fdiv flog ffloor fto_int NumF]. rewrite C1.
    assert (C4 : (0x1.312d000000003p23 - numeric_epsilon (N:=NumF lm) <=? v)%float = false) by (vm_compute; reflexivity). rewrite C4.
    replace (v / 1)%float with 10000000%float by (vm_compute; reflexivity). rewrite L.
    assert (J : F_to_int (F_floor (0x1.01e3b843eaa73p4 / LN10_ (N:=NumF lm) / et_step (lsF lm))%float) = Some 199%Z) by (vm_compute; reflexivity). rewrite J. cbn [cast bind].
    rewrite aget_UB; [reflexivity|]. change (et_values (lsF lm)) with (map (et_point (N:=NumF lm) (lit (Num:=NumF lm) 0) (et_step (lsF lm))) (seq 0 200)). rewrite map_length, seq_length. lia. }
  assert (INT : forall y, et_interpolate (N:=NumF lm) (lsF lm) v y = UB OutOfBounds).
  { intros y. unfold et_interpolate. change (et_n (lsF lm)) with 200%nat. change (Z.of_nat 200 - 1)%Z with 199%Z. rewrite (ls_agetF lm 0), (ls_agetF lm 199) by lia. cbn [bind]. change (Z.to_nat 0) with 0%nat. change (Z.to_nat 199) with 199%nat.
    rewrite P0, P9. cbn [fltb feqb NumF]. rewrite C1, C2, C3. cbn [orb]. rewrite IX. reflexivity. }
  split; [|split; [exact INT|]].
  { rewrite P0, P9. destruct (ltb_val v 1%float FV F1) as [Q|Q]; [discriminate C1|]. destruct (ltb_val _ v F9 FV) as [Q2|Q2]; [discriminate C2|]. destruct (eqb_val v _ FV F9) as [Q3|Q3]; [discriminate C3|]. lra. }
  assert (LK : forall tab z, length tab = 108%nat -> (0 <= z < 108)%Z -> ls_lookup (N:=NumF lm) tab z v = UB OutOfBounds).
  { intros tab z T Z1. unfold ls_lookup. replace (aget tab z) with (Ok (nth (Z.to_nat z) tab [])); [cbn [bind]; apply INT|]. symmetry. apply aget_ok. split; [lia|]. apply nth_error_nth'. lia. }
  intros p PT (z & Z1 & Z2). unfold precalculated_lindhard, precalculated_lindhard_X. rewrite Z1, PT. cbn [cast bind]. change (ls_energy_table (N:=NumF lm)) with (lsF lm). rewrite (ls_agetF lm 0) by lia. change (Z.to_nat 0) with 0%nat. rewrite P0. cbn [bind fltb NumF]. rewrite C1.
  assert (ZM : (z >? LS_MAX_Z)%Z = false) by (unfold LS_MAX_Z; rewrite Z.gtb_ltb; apply Z.ltb_ge; lia). rewrite ZM. cbv zeta.
  rewrite (LK ls_coefficients_a _ (proj1 ls_a_sizes)) by lia. rewrite (LK ls_X_coefficients_a _ (proj1 ls_Xa_sizes)) by lia. split; reflexivity.
Qed.
Print Assumptions C25_binary64_refuted.
