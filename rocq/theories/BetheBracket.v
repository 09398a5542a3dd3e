(** * The bracket of the Bethe formula is positive from 10 MeV/u on *)
From Coq Require Import ZArith QArith Reals Qreals List Bool Lra Lia.
From Verif Require Import Num NumR Structures DataElements EnergyTable Calculations Storage SpecData DataProofs GridProofs
  BoundsProofs TotalProofs EnergyOutProofs Cases PropTables PropMaterial PropKin PropDedx PropSrim PropZeff PropCorr PropStrag BetheProofs.
Import ListNotations.
Local Open Scope R_scope.

(** ** The mean ionisation energy used for a constituent *)
Definition mean_I (I : R) (z : Z) : R := if Rlt_dec 0 I then I else ipot z.
(** left to the library, or a value no larger than what the library itself uses *)
Definition plausible_I (I : R) (z : Z) : Prop := 0 < I -> I <= 1200 /\ I * I <= 11500 * IZR z.
Definition ipot_check (z : Z) : bool :=
  let q := dec_Q (nth (Z.to_nat z) ionisation_potentials_z 0%dec) in
  Qle_bool q 1200 && Qle_bool (q * q) (11500 * inject_Z z).
Lemma ipot_checked : forallb ipot_check (zseq 1 120) = true. Proof. vm_compute. reflexivity. Qed.
Lemma mean_I_range I z : (1 <= z <= 120)%Z -> plausible_I I z -> 0 < mean_I I z <= 1200 /\ mean_I I z * mean_I I z <= 11500 * IZR z.
Proof.
  intros Z P. unfold mean_I. destruct (Rlt_dec 0 I) as [H|H]; [specialize (P H); lra|].
  pose proof (ipot_pos z Z) as IP. pose proof (zforall ipot_check 1 120 ipot_checked z ltac:(lia)) as C. unfold ipot_check in C. cbv zeta in C.
  rewrite andb_true_iff, !Qle_bool_iff in C. destruct C as [C1 C2]. apply Qle_Rle in C1, C2. rewrite !Q2R_mult in C2. rewrite <- Rlit_Q in C1, C2.
  assert (E : ipot (F:=R) z = Rlit (nth (Z.to_nat z) ionisation_potentials_z 0%dec)).
  { unfold ipot. replace ((z <? 1) || (z >? 120))%Z with false; [reflexivity|].
    symmetry. rewrite Z.gtb_ltb. apply orb_false_iff. split; apply Z.ltb_ge; lia. }
  rewrite E in *. replace (Q2R 1200) with 1200 in C1 by (unfold Q2R; simpl; lra). replace (Q2R 11500) with 11500 in C2 by (unfold Q2R; simpl; lra).
  replace (Q2R (inject_Z z)) with (IZR z) in C2 by (unfold Q2R, inject_Z; cbn [Qnum Qden]; lra). lra.
Qed.

(** ** Kinematics: the square of the momentum per mass *)
Definition eta2 (T : R) : R := (1 + T / u0) * (1 + T / u0) - 1.
Lemma eta2_low T : 10 <= T -> 21586 / 1000000 <= eta2 T.
Proof.
  intros H. unfold eta2. assert (Q : 1073544 / 100000000 <= T / u0).
  { apply Rmult_le_reg_r with u0; [apply u0_pos|]. unfold Rdiv at 2. rewrite Rmult_assoc, Rinv_l by (pose proof u0_pos; lra). unfold u0. lra. }
  set (q := T / u0) in *. clearbody q. nra.
Qed.
Lemma eta2_high T : 50000 <= T -> 2900 <= eta2 T.
Proof.
  intros H. unfold eta2. assert (Q : 5367 / 100 <= T / u0).
  { apply Rmult_le_reg_r with u0; [apply u0_pos|]. unfold Rdiv at 2. rewrite Rmult_assoc, Rinv_l by (pose proof u0_pos; lra). unfold u0. lra. }
  set (q := T / u0) in *. clearbody q. nra.
Qed.

(** the shell correction for u = 1 / eta^2, with alpha = I^2 / (10^6 Z) and iota = I / 1000 *)
Definition shell_P (u : R) : R := 422377 / 1000000 * u + 304043 / 10000000 * (u * u) - 38106 / 100000000 * (u * u * u).
Definition shell_Q (u : R) : R := 3858019 / 1000000 * u - 1667989 / 10000000 * (u * u) + 157955 / 100000000 * (u * u * u).
Lemma shell_bound u iota : 0 < u <= 464 / 10 -> 0 <= iota <= 12 / 10 -> shell_P u + iota * shell_Q u <= 475 / 10.
Proof.
  intros U I. assert (P : shell_P u <= 475 / 10).
  { unfold shell_P. assert (0 <= (464 / 10 - u) * (422377 / 1000000 + 304043 / 10000000 * (464 / 10 + u) - 38106 / 100000000 * (464 / 10 * (464 / 10) + 464 / 10 * u + u * u))) by (apply Rmult_le_pos; nra). lra. }
  assert (Q : shell_P u + 12 / 10 * shell_Q u <= 475 / 10).
  { unfold shell_P, shell_Q. assert (0 <= (u - 2051 / 100) * (u - 2051 / 100) * (464 / 10 - u)) by (apply Rmult_le_pos; [apply Rle_0_sqr|lra]).
    pose proof (Rle_0_sqr (u - 2051 / 100)) as SQ. unfold Rsqr in SQ. lra. }
  replace (shell_P u + iota * shell_Q u) with ((1 - iota / (12 / 10)) * shell_P u + iota / (12 / 10) * (shell_P u + 12 / 10 * shell_Q u)) by field.
  assert (0 <= iota / (12 / 10) <= 1) by lra. nra.
Qed.

(** the logarithm with the shell correction, written as in the code *)
Definition raw_log (c : Config R) (T Ipot tz : R) : R :=
  (let gamma := lit 1.0 + T / atomic_mass_unit in
   let beta2 := lit 1.0 - lit 1.0 / (gamma * gamma) in
   let beta := fsqrt beta2 in
   let f2 := flog (lit 2.0 * electron_mass * lit 1000000 * beta2 / Ipot) in
   let eta := beta * gamma in
   let f2 :=
     if negb (corr_has c no_shell_correction) && (lit 0.13 <=? eta) then
       let cor := (lit 0.422377 * fpow eta (lit (-2))
                   + lit 0.0304043 * fpow eta (lit (-4))
                   - lit 0.00038106 * fpow eta (lit (-6))) * lit 1e-6 * fpow Ipot (lit 2)
                  + (lit 3.858019 * fpow eta (lit (-2))
                     - lit 0.1667989 * fpow eta (lit (-4))
                     + lit 0.00157955 * fpow eta (lit (-6))) * lit 1.0e-9 * fpow Ipot (lit 3) in
       f2 - cor / tz
     else f2 in
   f2 + (lit 2 * flog gamma - beta2))%num.
Lemma pow_int x n y : 0 < x -> y = INR n -> Rpow_c x y = x ^ n.
Proof. intros X ->. rewrite Rpow_pos by exact X. now apply Rpower_pow. Qed.
Lemma pow_neg x n y : 0 < x -> y = - INR n -> Rpow_c x y = / (x ^ n).
Proof. intros X ->. rewrite Rpow_pos by exact X. rewrite Rpower_Ropp. f_equal. now apply Rpower_pow. Qed.

Lemma raw_log_bound c T I z : 10 <= T -> (1 <= z)%Z -> 0 < I <= 1200 -> I * I <= 11500 * IZR z ->
  ln (85166 / 100 * eta2 T) - eta2 T / (1 + eta2 T) - 54625 / 100000 <= raw_log c T I (IZR z).
Proof.
  intros T10 Z I0 I2. pose proof (eta2_low T T10) as E0. assert (Z1 : 1 <= IZR z) by (apply IZR_le; exact Z).
  unfold raw_log. cbv zeta. rewrite u0_eq. numR. replace (Rlit 1.0) with 1 by (dec_norm; lra).
  assert (GE : 1 <= 1 + T / u0) by (apply gamma_ge1; lra). set (g := 1 + T / u0) in *.
  assert (EG : eta2 T = g * g - 1) by reflexivity. set (e := eta2 T) in *. clearbody e.
  assert (B2 : 1 - 1 / (g * g) = e / (1 + e)) by (rewrite EG; field; nra). rewrite B2.
  assert (BP : 0 < e / (1 + e)) by (apply pos_quot; lra).
  assert (ETA : sqrt (e / (1 + e)) * g = sqrt e).
  { rewrite <- (sqrt_square g) at 1 by lra. rewrite <- sqrt_mult by nra. f_equal. rewrite EG. field. nra. }
  rewrite ETA. assert (SE : 0 < sqrt e) by (apply sqrt_lt_R0; lra). assert (SS : sqrt e * sqrt e = e) by (apply sqrt_sqrt; lra).
  set (s := sqrt e) in *. clearbody s.
  rewrite (pow_neg s 2) by (try exact SE; rewrite INR_IZR_INZ; dec_norm; simpl; lra).
  rewrite (pow_neg s 4) by (try exact SE; rewrite INR_IZR_INZ; dec_norm; simpl; lra).
  rewrite (pow_neg s 6) by (try exact SE; rewrite INR_IZR_INZ; dec_norm; simpl; lra).
  rewrite (pow_int I 2) by (try lra; rewrite INR_IZR_INZ; dec_norm; simpl; lra).
  rewrite (pow_int I 3) by (try lra; rewrite INR_IZR_INZ; dec_norm; simpl; lra).
  replace (s ^ 2) with e by (rewrite <- SS; ring). replace (s ^ 4) with (e * e) by (rewrite <- SS; ring). replace (s ^ 6) with (e * e * e) by (rewrite <- SS; ring).
  assert (LG : ln (Rlit 2.0 * electron_mass * Rlit 1000000 * (e / (1 + e)) / I) + Rlit 2 * ln g >= ln (85166 / 100 * e)).
  { replace (Rlit 2) with 2 by (dec_norm; lra). replace (2 * ln g) with (ln (g * g)) by (rewrite ln_mult by lra; ring).
    assert (EM : Rlit 2.0 * electron_mass (F:=R) * Rlit 1000000 = 1021997856 / 1000) by (unfold electron_mass; numR; dec_norm; lra). rewrite EM.
    rewrite <- ln_mult; [|apply pos_quot; [nra|lra]|nra]. replace (1021997856 / 1000 * (e / (1 + e)) / I * (g * g)) with (1021997856 / 1000 / I * e) by (replace (1 + e) with (g * g) by lra; field; split; [nra|lra]).
    apply Rle_ge. assert (Q : 85166 / 100 <= 1021997856 / 1000 / I).
    { apply Rmult_le_reg_r with I; [lra|]. replace (1021997856 / 1000 / I * I) with (1021997856 / 1000) by (field; lra). lra. }
    destruct (Req_dec (85166 / 100 * e) (1021997856 / 1000 / I * e)) as [->|NE]; [lra|]. left. apply ln_increasing; [lra|]. nra. }
  pose (u := / e). assert (U : 0 < u <= 464 / 10).
  { unfold u. split; [apply Rinv_0_lt_compat; lra|]. apply Rmult_le_reg_r with e; [lra|]. rewrite Rinv_l by lra. lra. }
  assert (COR : ((Rlit 0.422377 * / e + Rlit 0.0304043 * / (e * e) - Rlit 0.00038106 * / (e * e * e)) * Rlit 1e-6 * I ^ 2 +
      (Rlit 3.858019 * / e - Rlit 0.1667989 * / (e * e) + Rlit 0.00157955 * / (e * e * e)) * Rlit 1.0e-9 * I ^ 3) / IZR z <= 54625 / 100000).
  { replace (/ (e * e)) with (u * u) by (unfold u; field; lra). replace (/ (e * e * e)) with (u * u * u) by (unfold u; field; lra). fold u.
    pose proof (shell_bound u (I / 1000) U ltac:(lra)) as SB.
    match goal with |- ?x <= _ => replace x with (I * I / 1000000 / IZR z * (shell_P u + I / 1000 * shell_Q u)) end.
    2: { unfold shell_P, shell_Q. dec_norm. field. lra. }
    assert (AL : 0 <= I * I / 1000000 / IZR z <= 115 / 10000).
    { split; [apply Rmult_le_pos; [nra|left; apply Rinv_0_lt_compat; lra]|]. apply Rmult_le_reg_r with (IZR z); [lra|]. replace (I * I / 1000000 / IZR z * IZR z) with (I * I / 1000000) by (field; lra). lra. }
    nra. }
  destruct (negb _ && _); lra.
Qed.

(** ** the bracket stays positive from 10 MeV/u on *)
Lemma ln_ge x n : 0 < x -> 3 ^ n <= x -> INR n <= ln x.
Proof.
  intros X H. assert (E : exp (INR n) <= 3 ^ n).
  { clear. induction n as [|n IH]; [change (INR 0) with 0; rewrite exp_0; simpl; lra|]. rewrite S_INR, exp_plus. simpl pow. pose proof exp_le_3. pose proof (exp_pos (INR n)). pose proof (exp_pos 1). nra. }
  apply Rnot_lt_le. intros L. apply exp_increasing in L. rewrite exp_ln in L by exact X. lra.
Qed.
Lemma log_low e : 21586 / 1000000 <= e -> 23317 / 10000 <= ln (85166 / 100 * e) - e / (1 + e) - 54625 / 100000.
Proof.
  intros E. assert (A : 29 / 10 <= ln (1835 / 100)).
  { apply Rnot_lt_le. intros L. apply exp_increasing in L. rewrite exp_ln in L by lra. pose proof exp_29. lra. }
  set (k := 1835 / 85166). assert (LN : 1 - k / e <= ln (e / k)).
  { assert (P : 0 < k / e) by (unfold k; apply pos_quot; lra). pose proof (exp_ineq1_le (ln (k / e))) as H. rewrite exp_ln in H by exact P.
    replace (e / k) with (/ (k / e)) by (unfold k; field; lra). rewrite ln_Rinv by exact P. lra. }
  replace (85166 / 100 * e) with (1835 / 100 * (e / k)) by (unfold k; field). rewrite ln_mult by (try (unfold k; apply pos_quot; lra); lra).
  assert (M : - (220 / 10000) <= 1 - k / e - e / (1 + e)); [|lra].
  replace (1 - k / e - e / (1 + e)) with ((e - k * (1 + e)) / (e * (1 + e))) by (field; lra).
  apply Rmult_le_reg_r with (e * (1 + e)); [nra|]. replace ((e - k * (1 + e)) / (e * (1 + e)) * (e * (1 + e))) with (e - k * (1 + e)) by (field; lra). unfold k. nra.
Qed.

Lemma bracket_positive p c I z delta L : isotope p -> 10 <= pT p -> (1 <= z <= 120)%Z -> plausible_I I z ->
  (delta <= 14 / 100 \/ (- (6 / 100) <= log_momentum (beta_from_T (pT p)) /\ delta <= 46052 / 10000 * log_momentum (beta_from_T (pT p)) + 1)) ->
  - (561 / 100) <= L -> (pT p <= 50000 -> - (2225 / 1000) <= L) ->
  0 < raw_log c (pT p) (mean_I I z) (IZR z) /\ 0 < raw_log c (pT p) (mean_I I z) (IZR z) + L - delta / 2.
Proof.
  intros IP T Z PI D L1 L2. destruct (mean_I_range I z Z PI) as [MI MI2].
  pose proof (raw_log_bound c (pT p) (mean_I I z) z T (proj1 Z) MI MI2) as B. set (f := raw_log _ _ _ _) in *. clearbody f.
  pose proof (eta2_low (pT p) T) as E0. assert (EH : 50000 < pT p -> 2900 <= eta2 (pT p)) by (intros H; apply eta2_high; lra).
  assert (LM : log_momentum (beta_from_T (pT p)) = ln (eta2 (pT p)) / 2 / (23025851 / 10000000)).
  { unfold log_momentum. rewrite beta_sq by lra. assert (GE : 1 <= 1 + pT p / u0) by (apply gamma_ge1; lra). rewrite beta_R. unfold eta2 in *. set (g := 1 + pT p / u0) in *. clearbody g.
    replace (1 - (1 - 1 / (g * g))) with (/ g * / g) by (field; lra). rewrite sqrt_square by (left; apply Rinv_0_lt_compat; lra).
    f_equal. replace (1 - 1 / (g * g)) with ((g * g - 1) * (/ g * / g)) by (field; lra). rewrite sqrt_mult, sqrt_square; try (left; apply Rinv_0_lt_compat; lra); try nra.
    replace (sqrt (g * g - 1) * / g * (1 / / g)) with (sqrt (g * g - 1)) by (field; lra).
    rewrite <- Rpower_sqrt by lra. unfold Rpower. rewrite ln_exp. field. }
  rewrite LM in D. clear LM. set (e := eta2 (pT p)) in *. clearbody e. pose proof (log_low e E0) as LO.
  assert (BB : e / (1 + e) <= 1) by (apply Rmult_le_reg_r with (1 + e); [lra|]; replace (e / (1 + e) * (1 + e)) with e by (field; lra); lra).
  split; [lra|]. assert (LS : ln (85166 / 100 * e) = ln (85166 / 100) + ln e) by (apply ln_mult; lra).
  assert (L6 : 6 <= ln (85166 / 100)) by (replace 6 with (INR 6) by (rewrite INR_IZR_INZ; reflexivity); apply ln_ge; lra).
  destruct (Rle_lt_dec (pT p) 50000) as [H|H].
  - specialize (L2 H). destruct D as [D|[D1 D2]]; lra.
  - specialize (EH H). assert (L7 : 7 <= ln e) by (replace 7 with (INR 7) by (rewrite INR_IZR_INZ; reflexivity); apply ln_ge; lra).
    destruct D as [D|[D1 D2]]; lra.
Qed.

(** ** the electronic stopping of one constituent *)
Lemma bethe_form p t c I : pT p <> 0 ->
  bethek_dedx_e_t (F:=R) p t c I =
  (let beta2 := 1 - 1 / ((1 + pT p / u0) * (1 + pT p / u0)) in
   let f1 := dedx_constant * Rpow_c (z_effective p t c) 2 * IZR (tZ t) / (beta2 * tA t) in
   let barkas := if negb (corr_has c no_barkas) then bethek_barkas (z_effective p t c) (sqrt beta2 * (1 + pT p / u0)) (IZR (tZ t)) else 1 in
   delta <- bethek_density_effect (beta_from_T (pT p)) (tZ t) ;;
   LS <- (if negb (corr_has c no_lindhard) then precalculated_lindhard p else Ok 0) ;;
   Ok (let r := (raw_log c (pT p) (mean_I I (tZ t)) (IZR (tZ t)) * barkas + LS - delta / 2) * f1 in
       if Rltb 50000 (pT p) && negb (corr_has c no_highenergy) then r + pair_production p t + bremsstrahlung p t else r)).
Proof.
  intros T0. assert (L0 : Rlit 0.0 = 0) by (dec_norm; lra). assert (L1 : Rlit 1.0 = 1) by (dec_norm; lra).
  assert (L2 : Rlit 2.0 = 2) by (dec_norm; lra). assert (L2' : Rlit 2 = 2) by (dec_norm; lra). assert (L5 : Rlit 50000.0 = 50000) by (dec_norm; lra).
  assert (M : mean_I I (tZ t) = if Rltb 0 I then I else ipot (tZ t)) by (unfold mean_I; destruct (Rlt_dec 0 I), (Rltb_spec 0 I); (reflexivity || contradiction)).
  unfold bethek_dedx_e_t, raw_log. rewrite M, beta_R. cbv zeta. rewrite u0_eq. numR. rewrite L0, L1, L2, L2', L5.
  destruct (Reqb_spec (pT p) (Rlit 0)) as [E|_]; [exfalso; apply T0; rewrite E; dec_norm; lra|]. reflexivity.
Qed.

Lemma bethe_target p t c I : isotope p -> 0 < pA p -> 10 <= pT p -> (corr_has c no_lindhard = false -> ls_safe (pT p)) -> (1 <= tZ t <= 120)%Z -> 0 < tA t -> plausible_I I (tZ t) ->
  (corr_has c no_barkas = false -> 0 <= z_effective (F:=R) p t c) ->
  exists v, bethek_dedx_e_t (F:=R) p t c I = Ok v /\ 0 <= v.
Proof.
  intros IP PA T SF Z TA PI ZE. destruct (density_bound (beta_from_T (pT p)) (tZ t) (proj1 Z)) as (delta & ED & BD).
  assert (LS : exists L, (if negb (corr_has c no_lindhard) then precalculated_lindhard p else Ok 0) = Ok L /\ - (561 / 100) <= L /\ (pT p <= 50000 -> - (2225 / 1000) <= L)).
  { destruct (corr_has c no_lindhard) eqn:NL; cbn [negb]; [|apply L_bound; auto]. exists 0. split; [reflexivity|lra]. }
  destruct LS as (L & EL & L1 & L2). destruct (bracket_positive p c I (tZ t) delta L IP T Z PI BD L1 L2) as [F0 F1].
  rewrite bethe_form by lra. cbv zeta. rewrite ED. cbn [bind]. rewrite EL. cbn [bind]. eexists. split; [reflexivity|].
  assert (ZR : 1 <= IZR (tZ t)) by (apply IZR_le; lia).
  assert (BP : 0 < 1 - 1 / ((1 + pT p / u0) * (1 + pT p / u0))).
  { rewrite <- beta_sq by lra. destruct C36_beta as (_ & P & _). specialize (P (pT p) ltac:(lra)). nra. }
  assert (GE : 1 <= 1 + pT p / u0) by (apply gamma_ge1; lra).
  assert (BK : 1 <= if negb (corr_has c no_barkas) then bethek_barkas (z_effective p t c) (sqrt (1 - 1 / ((1 + pT p / u0) * (1 + pT p / u0))) * (1 + pT p / u0)) (IZR (tZ t)) else 1).
  { destruct (corr_has c no_barkas) eqn:NB; cbn [negb]; [lra|]. apply C41_barkas; [now apply ZE| |lra]. apply Rmult_lt_0_compat; [now apply sqrt_lt_R0|lra]. }
  set (b := if negb (corr_has c no_barkas) then _ else _) in *. clearbody b.
  assert (P2 : 0 <= Rpow_c (z_effective p t c) 2).
  { unfold Rpow_c. destruct (Rlt_dec 0 _); [left; apply exp_pos|]. destruct (Req_EM_T _ _); [destruct (Req_EM_T 2 0); lra|].
    destruct (Req_EM_T 2 (IZR (Int_part 2))) as [E|]; [|lra]. apply eq_IZR in E. rewrite <- E. set (z := z_effective p t c). change (powerRZ z 2) with (z ^ 2). simpl. nra. }
  set (r := raw_log _ _ _ _) in *. set (beta2 := 1 - _) in *. clearbody r beta2.
  assert (R1 : 0 <= (r * b + L - delta / 2) * (dedx_constant * Rpow_c (z_effective p t c) 2 * IZR (tZ t) / (beta2 * tA t))).
  { assert (K : 0 < dedx_constant (F:=R)) by (unfold dedx_constant; numR; dec_norm; lra).
    apply Rmult_le_pos; [nra|]. apply Rmult_le_pos; [|left; apply Rinv_0_lt_compat; nra]. apply Rmult_le_pos; [|lra]. apply Rmult_le_pos; lra. }
  pose proof (C41_pair_production p t). pose proof (C41_bremsstrahlung p t PA TA ltac:(lra)). destruct (_ && _); lra.
Qed.
