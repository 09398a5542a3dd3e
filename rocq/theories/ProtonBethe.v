(** * The Bethe formula for protons in nitrogen changes slowly with the energy *)
From Coq Require Import ZArith QArith Reals Qreals List Bool Lra Lia.
From Verif Require Import Num NumR Structures DataSrim DataElements EnergyTable Srim Calculations Storage SpecData DataProofs GridProofs
  BoundsProofs TotalProofs EnergyOutProofs Cases PropTables PropMaterial PropKin PropDedx PropSrim PropZeff PropCorr PropStrag BetheProofs BetheBracket LnBounds PropLSTable Near ProtonStopping ProtonLindhard ProtonHigh.
Import ListNotations.
Local Open Scope R_scope.

Lemma beta2_eta T : 0 <= T -> 1 - 1 / ((1 + T / u0) * (1 + T / u0)) = eta2 T / (1 + eta2 T).
Proof. intros H. pose proof (gamma_ge1 T H) as G. unfold eta2. set (g := 1 + T / u0) in *. clearbody g. field. split; nra. Qed.
Lemma eta_root T : 0 < eta2 T -> 0 <= T -> sqrt (eta2 T / (1 + eta2 T)) * (1 + T / u0) = sqrt (eta2 T).
Proof.
  intros E H. pose proof (gamma_ge1 T H) as G. assert (EG : eta2 T = (1 + T / u0) * (1 + T / u0) - 1) by reflexivity. set (e := eta2 T) in *. set (g := 1 + T / u0) in *. clearbody e g.
  rewrite <- (sqrt_square g) at 1 by lra. rewrite <- sqrt_mult; [|apply Rlt_le, pos_quot; lra|nra]. f_equal. rewrite EG. field. nra.
Qed.

(** the effective charge *)
Section Settings.
Variable c : Config R.
Hypothesis HZ : c_zeff c = z_none \/ c_zeff c = z_pierce_blann.
Definition charge (T : R) : R := z_effective (F:=R) (proton_at T) nitrogen c.
Lemma charge_range T : 10 <= T -> 997 / 1000 <= charge T <= 1.
Proof.
  intros H. unfold charge, z_effective. destruct HZ as [Q|Q]; rewrite Q; clear Q; [change (z_none =? z_none)%Z with true; cbv iota; cbn [proton_at pQ]; lra|].
  change (z_pierce_blann =? z_none)%Z with false. change (z_pierce_blann =? z_pierce_blann)%Z with true. cbv iota zeta. cbn [proton_at pT pZ]. rewrite u0_eq. numR.
  replace (Rlit 1.0) with 1 by (dec_norm; lra). rewrite beta2_eta by lra. pose proof (eta2_low T H) as E. set (e := eta2 T) in *. clearbody e.
  assert (B : 145 / 1000 <= sqrt (e / (1 + e))).
  { rewrite <- (sqrt_square (145 / 1000)) by lra. apply sqrt_le_1_alt. apply (Rmult_le_reg_r (1 + e)); [lra|]. replace (e / (1 + e) * (1 + e)) with e by (field; lra). lra. }
  set (b := sqrt (e / (1 + e))) in *. clearbody b. unfold z_eff_Pierce_Blann. numR.
  assert (O1 : Rpow_c 1 (Rlit 2.0 / Rlit 3.0) = 1) by (rewrite Rpow_pos by lra; unfold Rpower; rewrite ln_1, Rmult_0_r; apply exp_0). rewrite O1.
  assert (FS : 137 <= fine_structure_inverted (F:=R)) by (unfold fine_structure_inverted, fine_structure; numR; dec_norm; try lra; apply (Rmult_le_reg_r (72973525664 / 10000000000000)); lra).
  set (f := fine_structure_inverted (F:=R)) in *. clearbody f.
  replace (Rlit (-0.95) * f * b / 1) with (- (95 / 100 * f * b)) by (dec_norm; field). replace (Rlit 1.0) with 1 by (dec_norm; lra).
  assert (Q : 18 <= 95 / 100 * f * b) by nra. pose proof (exp_third_power 6 ltac:(lra)) as X. assert (M : exp (- (95 / 100 * f * b)) <= exp (- (3 * 6))) by (apply exp_mono; lra). pose proof (exp_pos (- (95 / 100 * f * b))).
  lra.
Qed.

(** the Barkas term *)
Lemma barkas_range z T : 0 <= z <= 1 -> 10 <= T -> 1 <= bethek_barkas (F:=R) z (sqrt (eta2 T)) 7 <= 1004 / 1000.
Proof.
  intros Z H. pose proof (eta2_low T H) as E. set (e := eta2 T) in *. clearbody e. assert (S1 : 1469 / 10000 <= sqrt e) by (rewrite <- (sqrt_square (1469 / 10000)) by lra; apply sqrt_le_1_alt; lra).
  set (s := sqrt e) in *. clearbody s. split; [apply C41_barkas; lra|]. unfold bethek_barkas. cbv zeta. numR.
  assert (S7 : 264 / 100 <= sqrt 7 <= 265 / 100) by (split; [rewrite <- (sqrt_square (264 / 100)) by lra; apply sqrt_le_1_alt; lra|rewrite <- (sqrt_square (265 / 100)) by lra; apply sqrt_le_1_alt; lra]).
  assert (FS : 0 < fine_structure (F:=R) <= 73 / 10000) by (unfold fine_structure; numR; dec_norm; lra).
  set (r := sqrt 7) in *. set (f := fine_structure (F:=R)) in *. clearbody r f.
  assert (V : 75 / 10 <= s / (f * r)).
  { apply (Rmult_le_reg_r (f * r)); [nra|]. replace (s / (f * r) * (f * r)) with s by (field; nra). nra. }
  set (v := s / (f * r)) in *. clearbody v. destruct (Rleb_spec (Rlit 4) v) as [_|C]; [|exfalso; apply C; dec_norm; lra].
  assert (SV : 27 / 10 <= sqrt v) by (rewrite <- (sqrt_square (27 / 10)) by lra; apply sqrt_le_1_alt; lra). set (q := sqrt v) in *. clearbody q.
  replace (Rlit 1.0) with 1 by (dec_norm; lra). replace (Rlit 2.0) with 2 by (dec_norm; lra). replace (Rlit 0.45) with (45 / 100) by (dec_norm; lra).
  assert (A : 0 < 45 / 100 / q <= 1667 / 10000).
  { split; [apply pos_quot; lra|]. apply (Rmult_le_reg_r q); [lra|]. replace (45 / 100 / q * q) with (45 / 100) by (field; lra). lra. }
  assert (B : 0 < / (v * v * r) <= 7 / 1000).
  { split; [apply Rinv_0_lt_compat; nra|]. replace (7 / 1000) with (/ (1000 / 7)) by field. apply Rinv_le_contravar; [lra|]. assert (5625 / 100 <= v * v) by nra. nra. }
  unfold Rdiv at 1. set (a := 45 / 100 / q) in *. set (i := / (v * v * r)) in *. clearbody a i. assert (0 <= z * a <= 1667 / 10000) by (split; nra). nra.
Qed.

(** the logarithm: without the shell correction, and the size of the shell correction *)
Definition bare_log (e : R) : R := ln (1021997856 / 82000 * e) - e / (1 + e).
Definition shell (u : R) : R :=
  ((422377 / 1000000 * u + 304043 / 10000000 * (u * u) - 38106 / 100000000 * (u * u * u)) * (6724 / 1000000) + (3858019 / 1000000 * u - 1667989 / 10000000 * (u * u) + 157955 / 100000000 * (u * u * u)) * (551368 / 1000000000)) / 7.
Lemma raw_log_value T : 10 <= T -> raw_log c T 82 7 = bare_log (eta2 T) - (if negb (corr_has c no_shell_correction) then shell (/ eta2 T) else 0).
Proof.
  intros H. pose proof (eta2_low T H) as E0. unfold raw_log. cbv zeta. rewrite u0_eq. numR. replace (Rlit 1.0) with 1 by (dec_norm; lra). rewrite beta2_eta, eta_root by lra.
  pose proof (gamma_ge1 T ltac:(lra)) as G. assert (EG : eta2 T = (1 + T / u0) * (1 + T / u0) - 1) by reflexivity. set (g := 1 + T / u0) in *. set (e := eta2 T) in *. clearbody e g.
  assert (SE : 0 < sqrt e) by (apply sqrt_lt_R0; lra). assert (SS : sqrt e * sqrt e = e) by (apply sqrt_sqrt; lra). set (s := sqrt e) in *. clearbody s.
  rewrite (pow_neg s 2) by (try exact SE; rewrite INR_IZR_INZ; dec_norm; simpl; lra).
  rewrite (pow_neg s 4) by (try exact SE; rewrite INR_IZR_INZ; dec_norm; simpl; lra).
  rewrite (pow_neg s 6) by (try exact SE; rewrite INR_IZR_INZ; dec_norm; simpl; lra).
  rewrite (pow_int 82 2) by (try lra; rewrite INR_IZR_INZ; dec_norm; simpl; lra).
  rewrite (pow_int 82 3) by (try lra; rewrite INR_IZR_INZ; dec_norm; simpl; lra).
  replace (s ^ 2) with e by (rewrite <- SS; ring). replace (s ^ 4) with (e * e) by (rewrite <- SS; ring). replace (s ^ 6) with (e * e * e) by (rewrite <- SS; ring).
  assert (LG : ln (Rlit 2.0 * electron_mass * Rlit 1000000 * (e / (1 + e)) / 82) + (Rlit 2 * ln g - e / (1 + e)) = bare_log e).
  { unfold bare_log. replace (Rlit 2) with 2 by (dec_norm; lra). replace (2 * ln g) with (ln (g * g)) by (rewrite ln_mult by lra; ring).
    assert (EM : Rlit 2.0 * electron_mass (F:=R) * Rlit 1000000 = 1021997856 / 1000) by (unfold electron_mass; numR; dec_norm; lra). rewrite EM.
    assert (P : 0 < e / (1 + e)) by (apply pos_quot; lra). replace (ln (1021997856 / 82000 * e)) with (ln (1021997856 / 1000 * (e / (1 + e)) / 82) + ln (g * g)); [ring|].
    rewrite <- ln_mult; [|nra|nra]. f_equal. replace (1 + e) with (g * g) by lra. field. nra. }
  set (cor := (_ + _) / 7). assert (C : cor = shell (/ e)).
  { unfold cor, shell. replace (/ (e * e)) with (/ e * / e) by (field; lra). replace (/ (e * e * e)) with (/ e * / e * / e) by (field; lra). generalize (/ e). intros v. dec_norm. field. }
  rewrite C. clear C cor. destruct (Rleb_spec (Rlit 0.13) s) as [_|Q]; [rewrite andb_true_r|exfalso; apply Q; replace (Rlit 0.13) with (13 / 100) by (dec_norm; lra); nra]. set (sh := shell (/ e)). clearbody sh. destruct (negb _); lra.
Qed.
Lemma shell_small u : 0 < u <= 464 / 10 -> - (14 / 100) <= shell u <= 14 / 100.
Proof.
  intros U. unfold shell. assert (U2 : 0 <= u * u <= 215296 / 100) by nra. assert (U3 : 0 <= u * u * u <= 99897344 / 1000) by (split; nra). set (u2 := u * u) in *. set (u3 := u2 * u) in *. clearbody u3 u2. lra.
Qed.
Lemma inv_eta2 T : 10 <= T -> 0 < / eta2 T <= 464 / 10.
Proof. intros H. pose proof (eta2_low T H) as E. split; [apply Rinv_0_lt_compat; lra|]. apply Rmult_le_reg_r with (eta2 T); [lra|]. rewrite Rinv_l by lra. lra. Qed.
Lemma raw_log_near T : 10 <= T -> Rabs (raw_log c T 82 7 - bare_log (eta2 T)) <= 14 / 100.
Proof.
  intros H. rewrite raw_log_value by exact H. pose proof (shell_small _ (inv_eta2 T H)) as S. set (s := shell _) in *. clearbody s. destruct (negb _); apply Rabs_le; lra.
Qed.

(** the density effect *)
Definition dpow (y : R) : R := Rpow_c y (32125 / 10000).
Definition dens (x : R) : R :=
  if Rlt_dec x (17378 / 10000) then 0
  else if Rle_dec x (41323 / 10000) then 46052 / 10000 * x - 1054 / 100 + 15349 / 100000 * dpow (41323 / 10000 - x)
  else 46052 / 10000 * x - 1054 / 100.
Definition logm (T : R) : R := ln (eta2 T) / 2 / (23025851 / 10000000).
Lemma log_momentum_eta T : 10 <= T -> log_momentum (beta_from_T T) = logm T.
Proof.
  intros H. pose proof (eta2_low T H) as E0. unfold log_momentum, logm. rewrite beta_sq by lra. assert (GE : 1 <= 1 + T / u0) by (apply gamma_ge1; lra). rewrite beta_R. unfold eta2 in *. set (g := 1 + T / u0) in *. clearbody g.
  replace (1 - (1 - 1 / (g * g))) with (/ g * / g) by (field; lra). rewrite sqrt_square by (left; apply Rinv_0_lt_compat; lra).
  f_equal. replace (1 - 1 / (g * g)) with ((g * g - 1) * (/ g * / g)) by (field; lra). rewrite sqrt_mult, sqrt_square; try (left; apply Rinv_0_lt_compat; lra); try nra.
  replace (sqrt (g * g - 1) * / g * (1 / / g)) with (sqrt (g * g - 1)) by (field; lra).
  rewrite <- Rpower_sqrt by lra. unfold Rpower. rewrite ln_exp. field.
Qed.
Lemma param_at t d v : nth (density_row 7) t 0%dec = d -> Rlit d = v -> param t 7 = v.
Proof. intros H <-. unfold param. now rewrite H. Qed.
Lemma density_value T : 10 <= T -> bethek_density_effect (F:=R) (beta_from_T T) 7 = Ok (dens (logm T)).
Proof.
  intros H. rewrite (C41_density_value _ 7) by lia. cbv zeta. rewrite log_momentum_eta by exact H. unfold dens, dpow.
  rewrite (param_at density_effect_x0 1.7378%dec (17378 / 10000)) by (reflexivity || (dec_norm; lra)). rewrite (param_at density_effect_x1 4.1323%dec (41323 / 10000)) by (reflexivity || (dec_norm; lra)).
  rewrite (param_at density_effect_c 10.5400%dec (1054 / 100)) by (reflexivity || (dec_norm; lra)). rewrite (param_at density_effect_a 0.15349%dec (15349 / 100000)) by (reflexivity || (dec_norm; lra)).
  rewrite (param_at density_effect_m 3.2125%dec (32125 / 10000)) by (reflexivity || (dec_norm; lra)). rewrite (param_at density_effect_del_0 0.00%dec 0) by (reflexivity || (dec_norm; lra)).
  destruct (Rlt_dec _ _); [|reflexivity]. destruct (Rlt_dec 0 0); [lra|reflexivity].
Qed.

(** the power of the distance to x1 *)
Lemma dpow_bound y : 0 < y <= 23945 / 10000 -> 0 < dpow y <= 744 / 100 * y.
Proof.
  intros Y. unfold dpow. split; [apply Rpow_pos_gt0; lra|]. pose proof (pow_upper y 3 (2125 / 10000) (32125 / 10000) ltac:(lra)) as U. replace (INR 3) with 3 in U by (rewrite INR_IZR_INZ; reflexivity).
  specialize (U ltac:(lra) ltac:(lra)). eapply Rle_trans; [exact U|]. assert (A : y * y <= 57337 / 10000) by nra. assert (B : 0 < 1 + 2125 / 10000 * (y - 1) <= 12964 / 10000) by lra. cbn [pow].
  replace (y * (y * (y * 1)) * (1 + 2125 / 10000 * (y - 1))) with (y * ((y * y) * (1 + 2125 / 10000 * (y - 1)))) by ring. rewrite (Rmult_comm (744 / 100)). apply Rmult_le_compat_l; [lra|]. apply Rle_trans with (57337 / 10000 * (12964 / 10000)); [apply Rmult_le_compat; nra|lra].
Qed.
Lemma dpow_step y v : 0 < v <= y -> y <= 23945 / 10000 -> 0 <= dpow y - dpow v <= 24 * (y - v).
Proof.
  intros V Y. destruct (dpow_bound y ltac:(lra)) as [P1 P2]. unfold dpow in *. rewrite !Rpow_pos in * by lra. split; [assert (Rpower v (32125 / 10000) <= Rpower y (32125 / 10000)) by (apply Rle_Rpower_l; lra); lra|].
  set (m := 32125 / 10000) in *. pose (r := v / y). assert (RY : v = r * y) by (unfold r; field; lra). assert (R0 : 0 < r <= 1) by (split; [apply pos_quot; lra|apply (Rmult_le_reg_r y); lra]). clearbody r. subst v.
  rewrite <- Rpower_mult_distr by lra. pose proof (bernoulli (/ m) (Rpower r m)) as B. assert (M : m = 32125 / 10000) by reflexivity. assert (IM : / m * m = 1) by (apply Rinv_l; lra).
  assert (B0 : 0 <= / m <= 1) by (rewrite M; lra). specialize (B B0 (exp_pos _)). unfold Rpower at 1 in B. rewrite ln_exp in B. replace (/ m * (m * ln r)) with (ln r) in B by (field; lra). rewrite exp_ln in B by lra.
  set (p := Rpower y m) in *. set (w := Rpower r m) in *. clearbody p w. assert (W : m * (r - 1) <= w - 1).
  { replace (w - 1) with (m * (/ m * (w - 1))) by (rewrite <- Rmult_assoc, (Rmult_comm m), IM; ring). apply Rmult_le_compat_l; lra. }
  clearbody m. subst m. assert (p * (1 - w) <= p * (32125 / 10000 * (1 - r))) by (apply Rmult_le_compat_l; lra). assert (p * (1 - r) <= 744 / 100 * y * (1 - r)) by (apply Rmult_le_compat_r; lra). lra.
Qed.
Lemma dpow_edge : 137 / 10 <= dpow (23945 / 10000) <= 1782 / 100.
Proof.
  split; [|pose proof (dpow_bound (23945 / 10000)); lra]. unfold dpow. rewrite Rpow_pos by lra. replace (32125 / 10000) with (INR 3 + 2125 / 10000) by (rewrite INR_IZR_INZ; simpl; lra). rewrite Rpower_plus, Rpower_pow by lra.
  assert (1 <= Rpower (23945 / 10000) (2125 / 10000)) by (rewrite <- (Rpower_O (23945 / 10000)) at 1 by lra; apply Rle_Rpower; lra). nra.
Qed.
Lemma dpow_zero : dpow 0 = 0.
Proof. unfold dpow, Rpow_c. destruct (Rlt_dec 0 0); [lra|]. destruct (Req_EM_T 0 0); [|lra]. destruct (Req_EM_T _ 0); lra. Qed.
Lemma dpow_any y : 0 <= y <= 23945 / 10000 -> 0 <= dpow y <= 744 / 100 * y.
Proof. intros Y. destruct (Req_dec y 0) as [->|N]; [rewrite dpow_zero; lra|]. pose proof (dpow_bound y ltac:(lra)). lra. Qed.
Lemma dpow_any_step y v : 0 <= v <= y -> y <= 23945 / 10000 -> 0 <= dpow y - dpow v <= 24 * (y - v).
Proof. intros V Y. destruct (Req_dec v 0) as [->|N]; [rewrite dpow_zero; pose proof (dpow_any y ltac:(lra)); lra|]. apply dpow_step; lra. Qed.
Lemma dens_step x z : x <= z <= x + 178 / 10000 -> - (44 / 100) <= dens z - dens x <= 44 / 100.
Proof.
  intros H. unfold dens. pose proof dpow_edge as DE. destruct (Rlt_dec x (17378 / 10000)) as [A|A]; destruct (Rlt_dec z (17378 / 10000)) as [B|B]; try lra.
  - destruct (Rle_dec z (41323 / 10000)) as [C|C]; [|lra]. pose proof (dpow_any_step (23945 / 10000) (41323 / 10000 - z) ltac:(lra) ltac:(lra)) as S. lra.
  - destruct (Rle_dec x (41323 / 10000)) as [C|C]; destruct (Rle_dec z (41323 / 10000)) as [D|D]; try lra.
    + pose proof (dpow_any_step (41323 / 10000 - x) (41323 / 10000 - z) ltac:(lra) ltac:(lra)) as S. lra.
    + pose proof (dpow_any (41323 / 10000 - x) ltac:(lra)) as S. lra.
Qed.
Lemma dens_upper x : 17 / 10 <= x -> dens x <= 46052 / 10000 * x - 78 / 10.
Proof.
  intros X. unfold dens. pose proof dpow_edge as DE. destruct (Rlt_dec x (17378 / 10000)) as [A|A]; [lra|]. destruct (Rle_dec x (41323 / 10000)) as [C|C]; [|lra].
  pose proof (dpow_any_step (23945 / 10000) (41323 / 10000 - x) ltac:(lra) ltac:(lra)) as S. lra.
Qed.

(** ** The bracket *)
Definition barkas (T : R) : R := if negb (corr_has c no_barkas) then bethek_barkas (charge T) (sqrt (eta2 T)) 7 else 1.
Definition LS (T : R) : R := if negb (corr_has c no_lindhard) then lindhard T else 0.
(** the energies at which the Lindhard tables are read within their bounds *)
Definition inside (T : R) : Prop := 10 <= T /\ (corr_has c no_lindhard = false -> T < ls_glast - numeric_epsilon).
Lemma barkas_bounds T : 10 <= T -> 1 <= barkas T <= 1004 / 1000.
Proof. intros H. unfold barkas. destruct (negb _); [|lra]. apply barkas_range; [|exact H]. pose proof (charge_range T H). lra. Qed.
Lemma LS_range T : inside T -> - (324 / 100) <= LS T <= 19 / 1000 /\ (T <= 59000 -> - (16 / 1000) <= LS T).
Proof. intros [H1 H2]. unfold LS. destruct (corr_has c no_lindhard); cbn [negb]; [lra|]. apply lindhard_range. specialize (H2 eq_refl). lra. Qed.
Lemma LS_step x z : 10 <= x -> x <= z -> z <= 104 / 100 * x -> inside z -> - (27 / 100) <= LS z - LS x <= 27 / 100.
Proof. intros X XZ ZX [_ H2]. unfold LS. destruct (corr_has c no_lindhard); cbn [negb]; [lra|]. apply lindhard_step; try assumption. exact (H2 eq_refl). Qed.
Definition bracket (T : R) : R := raw_log c T 82 7 * barkas T + LS T - dens (logm T) / 2.
Lemma eta2_step x z : 0 < x -> x <= z -> z <= 104 / 100 * x -> eta2 x <= eta2 z <= 10816 / 10000 * eta2 x.
Proof.
  intros X XZ ZX. unfold eta2. pose proof u0_pos as U. assert (A : x / u0 <= z / u0) by (apply Rmult_le_compat_r; [left; apply Rinv_0_lt_compat; exact U|exact XZ]).
  assert (B : z / u0 <= 104 / 100 * (x / u0)) by (unfold Rdiv at 1 3; rewrite <- Rmult_assoc; apply Rmult_le_compat_r; [left; apply Rinv_0_lt_compat; exact U|exact ZX]).
  assert (C : 0 < x / u0) by (apply pos_quot; assumption). set (a := x / u0) in *. set (b := z / u0) in *. clearbody a b. split; nra.
Qed.
Lemma bare_step e f : 21586 / 1000000 <= e -> e <= f -> f <= 10816 / 10000 * e -> - (3 / 100) <= bare_log f - bare_log e <= 82 / 1000.
Proof.
  intros E EF FE. unfold bare_log. rewrite !ln_mult by lra. pose proof (ln_ratio (10816 / 10000) e f ltac:(lra) EF FE) as L.
  assert (D : 0 <= f / (1 + f) - e / (1 + e) <= 3 / 100).
  { replace (f / (1 + f) - e / (1 + e)) with ((f - e) / ((1 + e) * (1 + f))) by (field; lra). split; [apply Rmult_le_pos; [lra|left; apply Rinv_0_lt_compat; nra]|].
    apply (Rmult_le_reg_r ((1 + e) * (1 + f))); [nra|]. replace ((f - e) / ((1 + e) * (1 + f)) * ((1 + e) * (1 + f))) with (f - e) by (field; lra). pose proof (Rle_0_sqr (e - 1)) as SQ. unfold Rsqr in SQ. nra. }
  lra.
Qed.
Lemma const_log : 943 / 100 <= ln (1021997856 / 82000) <= 944 / 100.
Proof. pose proof (ln_between 1021997856 82000 9430000 9440000 ltac:(vm_compute; reflexivity)). lra. Qed.
Lemma bare_low e : 21586 / 1000000 <= e -> 549 / 100 <= bare_log e.
Proof.
  intros E. unfold bare_log. assert (F : e / (1 + e) <= 1 /\ e / (1 + e) <= e).
  { split; apply (Rmult_le_reg_r (1 + e)); try lra; replace (e / (1 + e) * (1 + e)) with e by (field; lra); nra. }
  destruct (Rle_dec e (1 / 10)) as [S|S].
  - pose proof (ln_between 269 1 5590000 5600000 ltac:(vm_compute; reflexivity)) as L. replace (269 / 1) with 269 in L by field. pose proof (ln_le_mono 269 (1021997856 / 82000 * e) ltac:(lra) ltac:(lra)). lra.
  - pose proof (ln_between 1240 1 7100000 7200000 ltac:(vm_compute; reflexivity)) as L. replace (1240 / 1) with 1240 in L by field. pose proof (ln_le_mono 1240 (1021997856 / 82000 * e) ltac:(lra) ltac:(lra)). lra.
Qed.
Lemma raw_facts T : 10 <= T -> bare_log (eta2 T) - 14 / 100 <= raw_log c T 82 7 <= bare_log (eta2 T) + 14 / 100 /\ 535 / 100 <= raw_log c T 82 7.
Proof. intros H. pose proof (raw_log_near T H) as N. pose proof (bare_low _ (eta2_low T H)) as L. unfold Rabs in N. destruct (Rcase_abs _) in N; lra. Qed.
Lemma barkas_small r b d l : 0 < r -> 1 <= b <= 1004 / 1000 -> r <= 3 * (r - d / 2) -> 15 <= r - d / 2 -> - (324 / 100) <= l -> near (1016 / 1000) (r * b + l - d / 2) (r + l - d / 2).
Proof. intros H B A W L. assert (0 <= r * (b - 1) <= r * (4 / 1000)) by (split; [apply Rmult_le_pos; lra|apply Rmult_le_compat_l; lra]). replace (r * b) with (r + r * (b - 1)) by ring. set (k := r * (b - 1)) in *. clearbody k. repeat split; lra. Qed.
Lemma logm_low z : 10 <= z -> logm z < 17378 / 10000 -> z <= 59000.
Proof.
  intros Z L. apply Rnot_lt_le. intros H. assert (E : 4000 <= eta2 z).
  { unfold eta2. pose proof u0_pos as U. assert (Q : 633 / 10 <= z / u0) by (apply (Rmult_le_reg_r u0); [exact U|]; replace (z / u0 * u0) with z by (field; lra); unfold u0; lra). set (q := z / u0) in *. clearbody q. nra. }
  pose proof (ln_between 4000 1 8290000 8300000 ltac:(vm_compute; reflexivity)) as L4. replace (4000 / 1) with 4000 in L4 by field. pose proof (ln_le_mono 4000 (eta2 z) ltac:(lra) E) as M. unfold logm in L. lra.
Qed.
Section Bracket.
  Variables x z : R.
  Hypothesis X : 10 <= x.
  Hypothesis XZ : x <= z.
  Hypothesis ZX : z <= 104 / 100 * x.
  Hypothesis IN : inside z.
  Lemma inside_x : inside x.
  Proof. destruct IN as [_ H]. split; [exact X|]. intros Q. specialize (H Q). lra. Qed.
  Lemma bracket_facts : - (362 / 1000) <= raw_log c z 82 7 - raw_log c x 82 7 <= 362 / 1000 /\ 535 / 100 <= raw_log c x 82 7 /\ 535 / 100 <= raw_log c z 82 7 /\
    829 / 100 + 46051702 / 10000000 * logm x <= raw_log c x 82 7 /\ 829 / 100 + 46051702 / 10000000 * logm z <= raw_log c z 82 7 /\
    - (44 / 100) <= dens (logm z) - dens (logm x) <= 44 / 100 /\ logm x <= logm z <= logm x + 178 / 10000.
  Proof.
    pose proof (eta2_low x X) as E0. destruct (eta2_step x z ltac:(lra) XZ ZX) as [E1 E2]. pose proof (bare_step _ _ E0 E1 E2) as BS.
    destruct (raw_facts x X) as [RX LX]. destruct (raw_facts z ltac:(lra)) as [RZ LZ].
    assert (LL : 0 <= ln (eta2 z) - ln (eta2 x) <= 816 / 10000) by (pose proof (ln_ratio (10816 / 10000) (eta2 x) (eta2 z) ltac:(lra) E1 E2); lra).
    assert (MX : ln (eta2 x) = 46051702 / 10000000 * logm x) by (unfold logm; field). assert (MZ : ln (eta2 z) = 46051702 / 10000000 * logm z) by (unfold logm; field).
    assert (BB : forall e, 0 < e -> bare_log e >= 943 / 100 + ln e - 1).
    { intros e E. unfold bare_log. rewrite ln_mult by lra. pose proof const_log. assert (e / (1 + e) <= 1) by (apply (Rmult_le_reg_r (1 + e)); [lra|]; replace (e / (1 + e) * (1 + e)) with e by (field; lra); lra). lra. }
    pose proof (BB (eta2 x) ltac:(lra)) as BX1. pose proof (BB (eta2 z) ltac:(lra)) as BZ1. clear BB.
    assert (LM : logm x <= logm z <= logm x + 178 / 10000) by lra. pose proof (dens_step (logm x) (logm z) LM) as DS. lra.
  Qed.
  Lemma bracket_near_low : logm z < 17378 / 10000 -> near (108 / 100) (bracket x) (bracket z) /\ 533 / 100 <= bracket x.
  Proof.
    intros LOW. destruct bracket_facts as (D & LX & LZ & _ & _ & _ & LM). pose proof (logm_low z ltac:(lra) LOW) as Z5. destruct (LS_range x inside_x) as [[_ A1] A2]. destruct (LS_range z IN) as [[_ B1] B2]. specialize (A2 ltac:(lra)). specialize (B2 Z5).
    unfold bracket. pose proof (barkas_bounds x X) as BX. pose proof (barkas_bounds z ltac:(lra)) as BZ.
    assert (D1 : dens (logm x) = 0) by (unfold dens; destruct (Rlt_dec _ _); [reflexivity|exfalso; lra]). assert (D2 : dens (logm z) = 0) by (unfold dens; destruct (Rlt_dec _ _); [reflexivity|exfalso; lra]).
    rewrite D1, D2. set (r := raw_log c x 82 7) in *. set (s := raw_log c z 82 7) in *. set (b := barkas x) in *. set (d := barkas z) in *. set (l := LS x) in *. set (m := LS z) in *. clearbody r s b d l m.
    replace (r * b + l - 0 / 2) with (r * b + l) by field. replace (s * d + m - 0 / 2) with (s * d + m) by field.
    assert (RB : 535 / 100 <= r * b) by nra. assert (SD : 535 / 100 <= s * d) by nra. split; [|lra].
    assert (N0 : near ((1 + 362 / 1000 / (535 / 100)) * (1 + 4 / 1000 / 1)) (r * b) (s * d)) by (apply near_mult; apply near_diff; lra).
    assert (N1 : near (1 + 19 / 1000 / (533 / 100)) (r * b + l) (r * b)) by (apply near_diff; lra). assert (N2 : near (1 + 19 / 1000 / (533 / 100)) (s * d) (s * d + m)) by (apply near_diff; lra).
    apply (near_weaken ((1 + 19 / 1000 / (533 / 100)) * (((1 + 362 / 1000 / (535 / 100)) * (1 + 4 / 1000 / 1)) * (1 + 19 / 1000 / (533 / 100))))); [lra|].
    eapply near_trans; [lra|lra|exact N1|]. eapply near_trans; [lra|lra|exact N0|exact N2].
  Qed.
  Lemma bracket_near : near (111 / 100) (bracket x) (bracket z) /\ 533 / 100 <= bracket x.
  Proof.
    destruct (Rlt_dec (logm z) (17378 / 10000)) as [LOW|HIGH]; [destruct (bracket_near_low LOW) as [N B]; split; [apply (near_weaken (108 / 100)); [lra|exact N]|exact B]|].
    destruct bracket_facts as (D & LX & LZ & BX1 & BZ1 & DS & LM). destruct (LS_range x inside_x) as [A1 _]. destruct (LS_range z IN) as [B1 _]. pose proof (LS_step x z X XZ ZX IN) as DL.
    unfold bracket. pose proof (barkas_bounds x X) as BX. pose proof (barkas_bounds z ltac:(lra)) as BZ. pose proof (dens_upper (logm x) ltac:(lra)) as UX. pose proof (dens_upper (logm z) ltac:(lra)) as UZ.
    set (r := raw_log c x 82 7) in *. set (s := raw_log c z 82 7) in *. set (b := barkas x) in *. set (d := barkas z) in *. set (l := LS x) in *. set (m := LS z) in *. set (dx := dens (logm x)) in *. set (dz := dens (logm z)) in *. clearbody r s b d l m dx dz.
    assert (AX : 15 <= r - dx / 2) by lra. assert (AZ : 15 <= s - dz / 2) by lra.
    assert (N1 : near (1016 / 1000) (r * b + l - dx / 2) (r + l - dx / 2)) by (apply barkas_small; lra). assert (N2 : near (1016 / 1000) (s + m - dz / 2) (s * d + m - dz / 2)) by (apply near_sym, barkas_small; lra).
    assert (N3 : near (1 + 86 / 100 / (1176 / 100)) (r + l - dx / 2) (s + m - dz / 2)) by (apply near_diff; lra).
    split.
    - apply (near_weaken (1016 / 1000 * ((1 + 86 / 100 / (1176 / 100)) * (1016 / 1000)))); [lra|]. eapply near_trans; [lra|lra|exact N1|]. eapply near_trans; [lra|lra|exact N3|exact N2].
    - assert (r <= r * b) by nra. lra.
  Qed.
End Bracket.

(** ** The Bethe formula *)
Definition high (T : R) : R := (charge T * charge T) * ((1 + / eta2 T) * bracket T) * (dedx_constant / 2).
(** with the losses above 50 GeV *)
Definition full (T : R) : R := if Rltb 50000 T && negb (corr_has c no_highenergy) then high T + (pair T + brems T) else high T.
Lemma high_value rho th T : inside T -> bethek_dedx_e (F:=R) (proton_at T) (gas rho th) c = Ok (full T).
Proof.
  intros [H IL]. unfold bethek_dedx_e. cbn [m_atoms gas ofold m_I]. fold (gas rho th). rewrite bethe_form by (cbn [proton_at pT]; lra). cbv zeta. cbn [proton_at pT nitrogen tZ tA]. fold (proton_at T). fold nitrogen. fold (charge T). fold (pair T). fold (brems T).
  assert (MI : mean_I 0 7 = 82) by (unfold mean_I; destruct (Rlt_dec 0 0); [lra|]; change (ipot (F:=R) 7) with (Rlit 82.0%dec); dec_norm; lra). rewrite MI. clear MI.
  rewrite density_value by exact H. cbn [bind].
  assert (EL : (if negb (corr_has c no_lindhard) then precalculated_lindhard (proton_at T) else Ok 0) = Ok (LS T)).
  { unfold LS. destruct (corr_has c no_lindhard); cbn [negb]; [reflexivity|]. destruct (lindhard_at T ltac:(specialize (IL eq_refl); lra)) as (i & l & _ & _ & _ & E & _). exact E. }
  rewrite EL. clear EL. cbn [bind]. rewrite wfrac_gas. numR.
  pose proof (eta2_low T H) as E. rewrite beta2_eta, eta_root by lra. fold (barkas T). replace (Rlit 0.0) with 0 by (dec_norm; lra). f_equal. unfold full, high, bracket.
  assert (CP : 0 < charge T) by (pose proof (charge_range T H); lra). replace (Rpow_c (charge T) 2) with (charge T * charge T) by (rewrite (pow_int (charge T) 2) by (try exact CP; rewrite INR_IZR_INZ; reflexivity); ring).
  set (f := raw_log c T 82 7 * _). set (l := LS T). set (d := dens _). set (e := eta2 T) in *. set (k := dedx_constant (F:=R)). set (q := charge T) in *. set (u := pair T). set (v := brems T). clearbody f l d e k q u v. destruct (_ && _); field; lra.
Qed.
Lemma weight_step x z : 0 < x -> x <= z -> z <= 104 / 100 * x -> near (104 / 100) (1 + / eta2 x) (1 + / eta2 z).
Proof.
  intros X XZ ZX. pose proof u0_pos as U. assert (P : forall T, 0 < T -> 0 < eta2 T) by (intros T T0; unfold eta2; assert (0 < T / u0) by (apply pos_quot; assumption); nra).
  destruct (eta2_step x z X XZ ZX) as [E1 _]. pose proof (P x X) as EX. pose proof (P z ltac:(lra)) as EZ. assert (IX : 0 < / eta2 x) by (apply Rinv_0_lt_compat; exact EX). assert (IZ : 0 < / eta2 z) by (apply Rinv_0_lt_compat; exact EZ).
  assert (I1 : / eta2 z <= / eta2 x) by (apply Rinv_le_contravar; lra). split; [lra|]. split; [lra|]. split; [lra|].
  assert (V : forall T, 0 < T -> 1 + / eta2 T = (T / u0 + / (2 + T / u0)) / (T / u0)).
  { intros T T0. unfold eta2. assert (0 < T / u0) by (apply pos_quot; assumption). set (t := T / u0) in *. clearbody t. field. split; nra. }
  rewrite !V by lra. assert (A : 0 < x / u0 <= z / u0) by (split; [apply pos_quot; lra|apply Rmult_le_compat_r; [left; apply Rinv_0_lt_compat; exact U|exact XZ]]).
  assert (B : z / u0 <= 104 / 100 * (x / u0)) by (unfold Rdiv at 1 3; rewrite <- Rmult_assoc; apply Rmult_le_compat_r; [left; apply Rinv_0_lt_compat; exact U|exact ZX]).
  set (a := x / u0) in *. set (b := z / u0) in *. clearbody a b. clear - A B.
  assert (W : a + / (2 + a) <= b + / (2 + b)).
  { assert (Q : / (2 + a) - / (2 + b) = (b - a) * / ((2 + a) * (2 + b))) by (field; lra). assert (QI : / ((2 + a) * (2 + b)) <= 1) by (rewrite <- Rinv_1; apply Rinv_le_contravar; nra). assert ((b - a) * / ((2 + a) * (2 + b)) <= (b - a) * 1) by (apply Rmult_le_compat_l; lra). lra. }
  assert (AP : 0 < / (2 + a)) by (apply Rinv_0_lt_compat; lra). set (v := a + / (2 + a)) in *. set (w := b + / (2 + b)) in *. assert (0 < v) by (unfold v; lra). clearbody v w.
  apply (Rmult_le_reg_r (a * b)); [nra|]. replace (v / a * (a * b)) with (v * b) by (field; lra). replace (104 / 100 * (w / b) * (a * b)) with (104 / 100 * w * a) by (field; lra). nra.
Qed.
Lemma dedx_constant_val : dedx_constant (F:=R) = 3070749187 / 10000000000.
Proof. unfold dedx_constant. numR. dec_norm. lra. Qed.
Lemma high_from k x z : 1 <= k -> 10 <= x -> x <= z -> z <= 104 / 100 * x -> near k (bracket x) (bracket z) -> near (10463 / 10000 * k) (high x) (high z).
Proof.
  intros K X XZ ZX N. unfold high. rewrite dedx_constant_val. pose proof (charge_range x X) as CX. pose proof (charge_range z ltac:(lra)) as CZ.
  apply (near_weaken ((1 + 3 / 1000 / (997 / 1000)) * (1 + 3 / 1000 / (997 / 1000)) * (104 / 100 * k) * 1)); [lra|]. apply near_mult; [|apply near_refl; lra]. apply near_mult.
  - apply near_mult; apply near_diff; lra.
  - apply near_mult; [apply weight_step; lra|exact N].
Qed.
Lemma logm_small z : 10 <= z <= 1000 -> logm z < 17378 / 10000.
Proof.
  intros H. pose proof (eta2_low z ltac:(lra)) as E0. assert (E : eta2 z <= 4).
  { unfold eta2. pose proof u0_pos as U. assert (Q : 0 <= z / u0 <= 11 / 10) by (split; apply (Rmult_le_reg_r u0); try exact U; replace (z / u0 * u0) with z by (field; lra); unfold u0; lra). set (q := z / u0) in *. clearbody q. nra. }
  pose proof (ln_upper (eta2 z) ltac:(lra)). unfold logm. lra.
Qed.
Lemma high_near_low x z : 10 <= x -> x <= z -> z <= 104 / 100 * x -> z <= 1000 -> inside z -> near (1135 / 1000) (high x) (high z).
Proof.
  intros X XZ ZX Z1 IN. destruct (bracket_near_low x z X XZ ZX IN (logm_small z ltac:(lra))) as [N _]. apply (near_weaken (10463 / 10000 * (108 / 100))); [lra|]. apply high_from; try assumption; lra.
Qed.
Lemma high_near x z : 10 <= x -> x <= z -> z <= 104 / 100 * x -> inside z -> near (117 / 100) (high x) (high z) /\ 8 / 10 <= high x /\ 8 / 10 <= high z.
Proof.
  intros X XZ ZX IN. destruct (bracket_near x z X XZ ZX IN) as [N _]. split; [apply (near_weaken (10463 / 10000 * (111 / 100))); [lra|]; apply high_from; try assumption; lra|].
  assert (S1 : forall T, inside T -> 8 / 10 <= high T).
  { intros T I. pose proof I as [H _]. destruct (bracket_near T T H ltac:(lra) ltac:(lra) I) as [_ B]. pose proof (charge_range T H) as C. pose proof (eta2_low T H) as E. assert (W : 0 < / eta2 T) by (apply Rinv_0_lt_compat; lra).
    unfold high. rewrite dedx_constant_val. set (b := bracket T) in *. set (w := / eta2 T) in *. clearbody b w. assert (C2 : 994 / 1000 <= charge T * charge T) by nra. set (q := charge T * charge T) in *. clearbody q.
    assert (533 / 100 <= (1 + w) * b) by nra. set (v := (1 + w) * b) in *. clearbody v. nra. }
  split; apply S1; [exact (inside_x x z X XZ IN)|exact IN].
Qed.
Lemma full_near x z : 10 <= x -> x <= z -> z <= 104 / 100 * x -> z <= 10010000 -> inside z -> near (128 / 100) (full x) (full z).
Proof.
  intros X XZ ZX ZE IN. destruct (high_near x z X XZ ZX IN) as (N & HX & HZ'). unfold full. destruct (negb (corr_has c no_highenergy)); [rewrite !andb_true_r|rewrite !andb_false_r; apply (near_weaken (117 / 100)); [lra|exact N]].
  destruct (Rltb_spec 50000 x) as [A|A]; destruct (Rltb_spec 50000 z) as [B|B]; try lra.
  - apply near_plus; [apply (near_weaken (117 / 100)); [lra|exact N]|]. apply near_plus; [apply (near_weaken (127 / 100)); [lra|apply pair_near; lra]|apply (near_weaken (109 / 100)); [lra|apply brems_near; lra]].
  - pose proof (pair_small z ltac:(lra)) as P. pose proof (brems_small z ltac:(lra)) as Q. apply (near_weaken (117 / 100 * (1 + 23 / 1000 / (8 / 10)))); [lra|]. eapply near_trans; [lra|lra|exact N|]. apply near_diff; lra.
  - apply (near_weaken (117 / 100)); [lra|exact N].
Qed.
(** between 10 and 30 MeV *)
Lemma high_size T : 10 <= T <= 30 -> inside T -> 370 <= T * high T <= 530.
Proof.
  intros H IN. assert (L : logm T < 17378 / 10000 /\ eta2 T <= 66 / 1000).
  { assert (E : eta2 T <= 66 / 1000).
    { unfold eta2. assert (T / u0 <= 324 / 10000) by (apply (Rmult_le_reg_r u0); [apply u0_pos|]; unfold Rdiv; rewrite Rmult_assoc, Rinv_l by (pose proof u0_pos; lra); unfold u0; lra). assert (0 <= T / u0) by (apply Rmult_le_pos; [lra|left; apply Rinv_0_lt_compat, u0_pos]). nra. }
    split; [|exact E]. pose proof (eta2_low T ltac:(lra)) as E0. pose proof (ln_upper (eta2 T) ltac:(lra)). unfold logm. lra. }
  destruct L as [L EU]. pose proof (eta2_low T ltac:(lra)) as E0.
  assert (BR : 533 / 100 <= bracket T <= 69 / 10).
  { unfold bracket. assert (D1 : dens (logm T) = 0) by (unfold dens; destruct (Rlt_dec _ _); [reflexivity|contradiction]). rewrite D1. destruct (raw_facts T ltac:(lra)) as [[_ R1] R2].
    pose proof (barkas_bounds T ltac:(lra)) as B. destruct (LS_range T IN) as [[_ L1] L2]. specialize (L2 ltac:(lra)).
    assert (BU : bare_log (eta2 T) <= 671 / 100).
    { unfold bare_log. pose proof (ln_between 823 1 6710000 6720000 ltac:(vm_compute; reflexivity)) as LB. replace (823 / 1) with 823 in LB by field. pose proof (ln_le_mono (1021997856 / 82000 * eta2 T) 823 ltac:(lra) ltac:(lra)).
      assert (2 / 100 <= eta2 T / (1 + eta2 T)) by (apply (Rmult_le_reg_r (1 + eta2 T)); [lra|]; replace (eta2 T / (1 + eta2 T) * (1 + eta2 T)) with (eta2 T) by (field; lra); lra). lra. }
    set (r := raw_log c T 82 7) in *. set (b := barkas T) in *. set (l := LS T) in *. clearbody r b l. split; nra. }
  assert (W : 46574 / 100 <= T * (1 + / eta2 T) <= 489).
  { assert (V : T * (1 + / eta2 T) = u0 * (T / u0 + / (2 + T / u0))).
    { unfold eta2. pose proof u0_pos as U. assert (0 < T / u0) by (apply pos_quot; lra). replace T with (u0 * (T / u0)) at 1 by (field; lra). set (t := T / u0) in *. clearbody t. field. split; nra. }
    rewrite V. assert (T1 : 1073 / 100000 <= T / u0 <= 324 / 10000).
    { split; apply (Rmult_le_reg_r u0); try apply u0_pos; unfold Rdiv; rewrite !Rmult_assoc, Rinv_l by (pose proof u0_pos; lra); unfold u0; lra. }
    set (t := T / u0) in *. clearbody t. assert (I1 : 492 / 1000 <= / (2 + t) <= 5 / 10).
    { split; [replace (492 / 1000) with (/ (1000 / 492)) by field|replace (5 / 10) with (/ 2) by field]; apply Rinv_le_contravar; lra. }
    assert (I2 : 5 / 10 <= t + / (2 + t)).
    { apply (Rmult_le_reg_r (2 + t)); [lra|]. rewrite Rmult_plus_distr_r, Rinv_l by lra. nra. }
    assert (I3 : t + / (2 + t) <= 5249 / 10000).
    { apply (Rmult_le_reg_r (2 + t)); [lra|]. rewrite Rmult_plus_distr_r, Rinv_l by lra. nra. }
    unfold u0. lra. }
  pose proof (charge_range T ltac:(lra)) as C. unfold high. rewrite dedx_constant_val.
  assert (C2 : 994 / 1000 <= charge T * charge T <= 1) by (split; nra).
  set (c2 := charge T * charge T) in *. set (b := bracket T) in *. set (w := 1 + / eta2 T) in *. clearbody c2 b w. clear L EU E0.
  replace (T * (c2 * (w * b) * (3070749187 / 10000000000 / 2))) with (c2 * ((T * w) * b) * (3070749187 / 20000000000)) by field. set (q := T * w) in *. clearbody q.
  assert (24800 / 10 <= q * b <= 33741 / 10) by (split; nra). set (m := q * b) in *. clearbody m. split; nra.
Qed.
End Settings.
