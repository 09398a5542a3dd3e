(** * C13: the time of flight does change with the default config *)
From Coq Require Import ZArith Reals List Bool Lra Lia.
From Verif Require Import Num NumR Structures DataElements EnergyTable Spline Integrator Calculations NucData Reactions Storage Catima CacheProofs CacheFresh History KeyEq ApiCache SpecData DataProofs GridProofs
  BoundsProofs TotalProofs ApiTotal Cases EnergyOutProofs LayerProofs PropCache PropGrid PropSpline PropEnergyOut PropLayers PropMaterial PropKin PropDedx PropSrim PropZeff PropCorr PropStrag PropQuad PropTables PropApi BetheProofs BetheBracket PropBethe PropThin.
From Verif Require PropWinger.
Import ListNotations.
Local Open Scope R_scope.

(** ** The Barkas factor exceeds 1 *)
Lemma barkas_strict z eta zt : 0 < z -> 0 < zt -> fine_structure * sqrt zt <= eta -> 1 < bethek_barkas (F:=R) z eta zt.
Proof.
  intros Z T E. unfold bethek_barkas. cbv zeta.
  assert (FS : 0 < fine_structure (F:=R)) by (unfold fine_structure; numR; dec_norm; lra).
  numR. pose proof (sqrt_lt_R0 zt T) as ST. set (v := eta / (fine_structure * sqrt zt)).
  assert (V : 1 <= v).
  { unfold v. assert (0 < fine_structure * sqrt zt) by (apply Rmult_lt_0_compat; assumption). apply Rmult_le_reg_r with (fine_structure * sqrt zt); [lra|]. unfold Rdiv. rewrite Rmult_assoc, Rinv_l by lra. lra. }
  clearbody v.
  replace (Rlit 4) with 4 by (dec_norm; lra). replace (Rlit 1) with 1 by (dec_norm; lra).
  replace (Rlit 1.0) with 1 by (dec_norm; lra). replace (Rlit 2.0) with 2 by (dec_norm; lra).
  match goal with |- 1 < 1 + 2 * z * ?f / _ => set (g := f) end.
  assert (G : 0 < g).
  { unfold g. destruct (Rleb_spec 4 v) as [A|A]; [apply pos_quot; [dec_norm; lra|apply sqrt_lt_R0; lra]|].
    destruct (Rleb_spec 1 v) as [B|B]; [|lra]. destruct (Rltb_spec v 4) as [C|C]; [|lra]. cbn [andb]. now apply barkas_table. }
  clearbody g. assert (0 < 2 * z * g / (v * v * sqrt zt)); [|lra]. apply pos_quot; [apply Rmult_lt_0_compat; lra|]. apply Rmult_lt_0_compat; [nra|exact ST].
Qed.

Lemma ok_inj {A} (a b : A) : Ok a = Ok b -> a = b.
Proof. congruence. Qed.
(** ** Two configs that differ in the Barkas correction only *)
Definition without_barkas (c c' : Config R) : Prop :=
  c_zeff c' = c_zeff c /\ corr_has c no_barkas = false /\ corr_has c' no_barkas = true /\ corr_has c' no_lindhard = corr_has c no_lindhard /\
  corr_has c' no_shell_correction = corr_has c no_shell_correction /\ corr_has c' no_highenergy = corr_has c no_highenergy.

Lemma eta_low T zt : 30 <= T -> 0 < zt <= 120 -> fine_structure (F:=R) * sqrt zt <= sqrt (1 - 1 / ((1 + T / u0) * (1 + T / u0))) * (1 + T / u0).
Proof.
  intros HT HZ. assert (FS : 0 < fine_structure (F:=R) <= 1 / 137) by (unfold fine_structure; numR; dec_norm; lra).
  assert (U : 0 < u0 <= 932) by (unfold u0; lra). assert (X : 30 / 932 <= T / u0).
  { apply Rmult_le_reg_r with u0; [lra|]. unfold Rdiv at 2. rewrite Rmult_assoc, Rinv_l by lra. nra. }
  set (g := 1 + T / u0) in *. assert (G : 1 + 30 / 932 <= g) by (unfold g; lra). clearbody g.
  assert (E : sqrt (1 - 1 / (g * g)) * g = sqrt (g * g - 1)).
  { replace (sqrt (1 - 1 / (g * g)) * g) with (sqrt (1 - 1 / (g * g)) * sqrt (g * g)) by (now rewrite (sqrt_square g) by lra). rewrite <- sqrt_mult; [f_equal; field; lra| |nra]. assert (1 / (g * g) <= 1); [|lra]. apply Rmult_le_reg_r with (g * g); [nra|]. unfold Rdiv. rewrite Rmult_assoc, Rinv_l by nra. nra. }
  rewrite E. apply Rle_trans with (sqrt (1 / 137 * (1 / 137) * zt)).
  - rewrite sqrt_mult by lra. rewrite sqrt_square by lra. apply Rmult_le_compat_r; [apply sqrt_pos|lra].
  - apply sqrt_le_1; nra.
Qed.

Lemma target_barkas p t c c' I v v' : isotope p -> 30 <= pT p -> ls_safe (pT p) -> (1 <= tZ t <= 120)%Z -> 0 < tA t -> plausible_I I (tZ t) -> 0 < z_effective (F:=R) p t c -> without_barkas c c' ->
  bethek_dedx_e_t (F:=R) p t c I = Ok v -> bethek_dedx_e_t (F:=R) p t c' I = Ok v' -> v' < v.
Proof.
  intros IP T SF Z TA PI ZE (CZ & B & B' & NL & NS & NH) H H'. destruct (density_bound (beta_from_T (pT p)) (tZ t) (proj1 Z)) as (delta & ED & BD).
  assert (LS : exists L, (if negb (corr_has c no_lindhard) then precalculated_lindhard p else Ok 0) = Ok L /\ - (561 / 100) <= L /\ (pT p <= 50000 -> - (2225 / 1000) <= L)).
  { destruct (corr_has c no_lindhard) eqn:NL'; cbn [negb]; [|apply L_bound; auto; lra]. exists 0. split; [reflexivity|lra]. }
  destruct LS as (L & EL & L1 & L2). destruct (bracket_positive p c I (tZ t) delta L IP ltac:(lra) Z PI BD L1 L2) as [F0 _].
  assert (ZR : 1 <= IZR (tZ t) <= 120) by (split; apply IZR_le; lia).
  rewrite bethe_form in H, H' by lra. cbv zeta in H, H'.
  assert (ZZ : z_effective (F:=R) p t c' = z_effective p t c) by (unfold z_effective; now rewrite CZ).
  assert (RL : raw_log c' (pT p) (mean_I I (tZ t)) (IZR (tZ t)) = raw_log c (pT p) (mean_I I (tZ t)) (IZR (tZ t))) by (unfold raw_log; now rewrite NS).
  rewrite NL, NH, B', ZZ, RL in H'. rewrite B in H. rewrite ED in H, H'. cbn [bind negb] in H, H'. rewrite EL in H, H'. cbn [bind] in H, H'.
  apply ok_inj in H. apply ok_inj in H'. rewrite <- H, <- H'. clear H H' v v'.
  pose proof (barkas_strict (z_effective p t c) (sqrt (1 - 1 / ((1 + pT p / u0) * (1 + pT p / u0))) * (1 + pT p / u0)) (IZR (tZ t)) ZE ltac:(lra) (eta_low (pT p) (IZR (tZ t)) T ltac:(lra))) as BK.
  assert (BP : 0 < 1 - 1 / ((1 + pT p / u0) * (1 + pT p / u0))).
  { rewrite <- beta_sq by lra. destruct C36_beta as (_ & P & _). specialize (P (pT p) ltac:(lra)). nra. }
  assert (P2 : 0 < Rpow_c (z_effective p t c) 2) by (unfold Rpow_c; destruct (Rlt_dec 0 _); [apply exp_pos|contradiction]).
  set (b := bethek_barkas _ _ _) in *. clearbody b. set (r := raw_log _ _ _ _) in *. set (beta2 := 1 - _) in *. clearbody r beta2.
  assert (K : 0 < dedx_constant (F:=R)) by (unfold dedx_constant; numR; dec_norm; lra).
  assert (F1 : 0 < dedx_constant * Rpow_c (z_effective p t c) 2 * IZR (tZ t) / (beta2 * tA t)).
  { apply pos_quot; [|now apply Rmult_lt_0_compat]. apply Rmult_lt_0_compat; [|lra]. apply Rmult_lt_0_compat; lra. }
  set (f1 := dedx_constant * _ * _ / _) in *. clearbody f1.
  assert ((r * 1 + L - delta / 2) * f1 < (r * b + L - delta / 2) * f1) by (apply Rmult_lt_compat_r; [exact F1|nra]).
  destruct (_ && _); lra.
Qed.

Lemma bethe_barkas p m c c' v v' : isotope p -> 0 < pA p -> 30 <= pT p -> ls_safe (pT p) -> known_material m -> (forall t, In t (m_atoms m) -> 0 < z_effective (F:=R) p t c) -> without_barkas c c' ->
  bethek_dedx_e (F:=R) p m c = Ok v -> bethek_dedx_e (F:=R) p m c' = Ok v' -> v' < v.
Proof.
  intros IP A T SF [(NE & M & S) K] ZE W. unfold bethek_dedx_e.
  assert (P : forall l b b', (forall t, In t l -> (0 < tA t /\ (1 <= tZ t)%Z /\ 0 < tstn t) /\ (tZ t <= 120)%Z /\ plausible_I (m_I m) (tZ t) /\ 0 < z_effective (F:=R) p t c) -> b' <= b -> forall v v',
    ofold (fun sum t => d <- bethek_dedx_e_t p t c (m_I m) ;; Ok (fadd sum (fmul (wfrac m t) d))) l b = Ok v ->
    ofold (fun sum t => d <- bethek_dedx_e_t p t c' (m_I m) ;; Ok (fadd sum (fmul (wfrac m t) d))) l b' = Ok v' -> v' <= v /\ (b' < b \/ l <> [] -> v' < v)).
  { induction l as [|t l IH]; intros b b' H B u u'; cbn [ofold]; [intros E E'; injection E as <-; injection E' as <-; split; [exact B|intros [X|X]; [exact X|congruence]]|].
    destruct (H t (or_introl eq_refl)) as ((TA & TZ & N) & TZ' & PI & ZT).
    destruct (bethek_dedx_e_t p t c (m_I m)) as [d|] eqn:E; [|discriminate]. destruct (bethek_dedx_e_t p t c' (m_I m)) as [d'|] eqn:E'; [|discriminate]. cbn [bind]. intros U U'.
    pose proof (target_barkas p t c c' (m_I m) d d' IP T SF (conj TZ TZ') TA PI ZT W E E') as D. pose proof (wfrac_pos m t M TA N) as WF.
    assert (D' : wfrac m t * d' < wfrac m t * d) by (apply Rmult_lt_compat_l; assumption).
    destruct (IH (fadd b (fmul (wfrac m t) d)) (fadd b' (fmul (wfrac m t) d'))) with (v := u) (v' := u') as [X1 X2]; [intros x X; apply H; now right|numR; lra|exact U|exact U'|].
    assert (u' < u) by (apply X2; left; numR; lra). split; [lra|intros _; assumption]. }
  intros H H'. refine (proj2 (P (m_atoms m) (lit 0.0) (lit 0.0) _ (Rle_refl _) v v' H H') (or_intror NE)). rewrite Forall_forall in S, K. intros t I. specialize (S t I). specialize (K t I). split; [exact S|]. split; [apply K|]. split; [apply K|auto].
Qed.

(** without the Barkas correction the ion is slowed down less and the computed time of flight is longer *)
Theorem C13_tof_barkas p Eout m c c' tof tof' : isotope p -> 0 < pA p -> known_material m -> 0 < m_rho m -> (forall T t, 0 < T -> In t (m_atoms m) -> 0 < z_effective (F:=R) (at_T p T) t c) ->
  without_barkas c c' -> 30 <= Eout < pT p -> pT p <= 15000 ->
  calculate_tof_from_E p Eout m c = Ok tof -> calculate_tof_from_E p Eout m c' = Ok tof' -> tof < tof'.
Proof.
  intros IP A KM RH ZE W EO TM H H'. unfold calculate_tof_from_E in H, H'.
  destruct C26_library as [IN LB]. rewrite LB in H, H'.
  destruct (quad _ (tof_integrand p m c) Eout (pT p)) as [r|] eqn:ER; [|discriminate H]. cbn [bind] in H. injection H as <-.
  destruct (quad _ (tof_integrand p m c') Eout (pT p)) as [r'|] eqn:ER'; [|discriminate H']. cbn [bind] in H'. injection H' as <-.
  assert (CF' : PropWinger.charge_known p m c') by (left; apply W).
  pose proof (C26_linear _ _ _ _ _ _ _ 1 (-1) IN ER' ER) as LIN.
  assert (RP : 0 < 1 * r' + -1 * r).
  { refine (C26_positive _ _ _ _ _ IN (proj2 EO) _ LIN).
    intros x u X. unfold tof_integrand. destruct (dedx (at_T p x) m c') as [d'|] eqn:ED'; [|discriminate]. cbn [bind]. destruct (dedx (at_T p x) m c) as [d|] eqn:ED; [|discriminate]. cbn [bind]. intros U. apply ok_inj in U. rewrite <- U. clear U u.
    assert (NB : ~ just_below_table_end x) by (unfold just_below_table_end; pose proof eps_small; pose proof table_end_high; lra).
    assert (D' : 0 < d') by (exact (proj1 (PropWinger.C52_positive_known (at_T p x) m c' IP A ltac:(cbn [at_T pT]; lra) KM CF') d' ED')).
    assert (TG : targets_ok m) by (eapply Forall_impl; [|exact (proj2 (proj2 (proj1 KM)))]; cbv beta; intros t (_ & Z1 & _); exact Z1).
    destruct (bethek_ok (at_T p x) m c (proj1 IP) TG ltac:(apply safe_iff; exact NB)) as [b EB].
    destruct (PropWinger.C52_bethe_known (at_T p x) m c' IP A ltac:(cbn [at_T pT]; lra) (fun _ => NB) KM CF') as (b' & EB' & _).
    assert (BL : b' < b) by (apply (bethe_barkas (at_T p x) m c c'); [exact IP|exact A|cbn [at_T pT]; lra|apply safe_iff; exact NB|exact KM|intros t I; apply ZE; [lra|exact I]|exact W|exact EB|exact EB']).
    rewrite (C37_high (at_T p x) m c ltac:(cbn [at_T pT]; lra) b EB) in ED. rewrite (C37_high (at_T p x) m c' ltac:(cbn [at_T pT]; lra) b' EB') in ED'. apply ok_inj in ED. apply ok_inj in ED'. subst d d'.
    assert (B : 0 < beta_from_T (F:=R) x) by (apply C36_beta; lra). change (@lit R NumR 1.0) with (Rlit 1.0). replace (Rlit 1.0) with 1 by (dec_norm; lra).
    set (n := dedx_n (at_T p x) m) in *. set (be := beta_from_T x) in *. clearbody n be. cbn [fdiv fmul fadd NumR].
    assert (1 / ((n + b) * be) < 1 / ((n + b') * be)); [|lra]. unfold Rdiv. rewrite !Rmult_1_l. apply Rinv_lt_contravar; [|nra]. apply Rmult_lt_0_compat; nra. }
  unfold tof_scale. numR. assert (CL : 0 < c_light (F:=R)) by (unfold c_light; numR; dec_norm; lra). unfold Rdiv. apply Rmult_lt_compat_r; [apply Rinv_0_lt_compat; nra|]. apply Rmult_lt_compat_r; [exact A|]. apply Rmult_lt_compat_r; [dec_norm; lra|lra].
Qed.
Print Assumptions C13_tof_barkas.

(** the time back from Eout to T is minus the time from T to Eout *)
Lemma tof_swap T E m c tof : calculate_tof_from_E (carbon T) E m c = Ok tof -> calculate_tof_from_E (carbon E) T m c = Ok (- tof).
Proof.
  unfold calculate_tof_from_E. destruct C26_library as [IN LB]. rewrite !LB. cbn [pT carbon].
  change (tof_integrand (carbon E) m c) with (tof_integrand (carbon T) m c).
  destruct (quad _ (tof_integrand (carbon T) m c) E T) as [r|] eqn:ER; [|discriminate]. rewrite (C26_swap _ _ _ _ _ IN ER). cbn [bind]. intros H. apply ok_inj in H. rewrite <- H. f_equal.
  unfold tof_scale. cbn [pA carbon]. numR. replace (Rlit 10.0) with 10 by (dec_norm; lra). unfold Rdiv. ring.
Qed.

(** ** A carbon ion between 30 and 100 MeV/u crossing water *)
Lemma energy_280 : 30 <= energy 280 /\ energy 281 <= 100.
Proof.
  assert (LB : 23 / 10 < LN10_ (F:=R) < 2303 / 1000) by (unfold LN10_; numR; dec_norm; lra). rewrite !energy_G by lia. unfold gval, gstep.
  replace (INR 600) with 600 by (rewrite INR_IZR_INZ; reflexivity). replace (INR 280) with 280 by (rewrite INR_IZR_INZ; reflexivity).
  replace (INR 281) with 281 by (rewrite INR_IZR_INZ; reflexivity). split.
  - apply Rle_trans with (exp (3.75)); [|left; apply exp_increasing; nra].
    replace 3.75 with (0.75 + 0.75 + 0.75 + 0.75 + 0.75) by lra. rewrite !exp_plus.
    assert (2.027 <= exp 0.75).
    { replace 0.75 with (0.125 + 0.125 + 0.125 + 0.125 + 0.125 + 0.125) by lra. rewrite !exp_plus. pose proof (exp_ineq1_le 0.125) as E. set (a := exp 0.125) in *. clearbody a.
      assert (1.265625 <= a * a) by nra. assert (1.4238 <= a * a * a) by nra. replace (a * a * a * a * a * a) with ((a * a * a) * (a * a * a)) by ring. nra. }
    set (b := exp 0.75) in *. clearbody b. assert (4.1 <= b * b) by nra. assert (8.3 <= b * b * b) by nra. assert (16.8 <= b * b * b * b) by nra. nra.
  - apply Rle_trans with (exp 4); [left; apply exp_increasing; nra|]. replace 4 with (1 + 1 + 1 + 1) by ring. rewrite !exp_plus. pose proof exp_le_3. pose proof (exp_pos 1). assert (exp 1 * exp 1 <= 9) by nra. nra.
Qed.
(** a cubic that takes two values has a non-zero slope somewhere in every interval *)
Lemma slope_somewhere q lo hi a b : cubic q -> lo < hi -> q a <> q b -> exists x v, lo < x < hi /\ v <> 0 /\ derivable_pt_lim q x v.
Proof.
  intros (c3 & c2 & c1 & c0 & Q) L N.
  assert (D : forall x, derivable_pt_lim q x (3 * c3 * x * x + 2 * c2 * x + c1)).
  { intros x. apply (deriv_local _ (fun z => ((c3 * z + c2) * z + c1) * z + c0) x _ 1); [lra|intros z _; rewrite Q; ring|].
    assert (D' : derivable_pt (fun z => ((c3 * z + c2) * z + c1) * z + c0) x) by reg.
    apply (derive_pt_eq_1 _ _ _ D'). reg; ring. }
  set (g x := 3 * c3 * x * x + 2 * c2 * x + c1) in *. set (h := (hi - lo) / 4). set (x1 := lo + h). set (x2 := lo + 2 * h). set (x3 := lo + 3 * h).
  destruct (Req_dec (g x1) 0) as [G1|G1]; [|exists x1, (g x1); unfold x1, h; repeat split; try lra; auto; apply D].
  destruct (Req_dec (g x2) 0) as [G2|G2]; [|exists x2, (g x2); unfold x2, h; repeat split; try lra; auto; apply D].
  destruct (Req_dec (g x3) 0) as [G3|G3]; [|exists x3, (g x3); unfold x3, h; repeat split; try lra; auto; apply D].
  exfalso. assert (H : h <> 0) by (unfold h; lra). unfold g, x1, x2, x3 in *. clearbody h.
  assert (A3 : c3 = 0). { assert (E : 6 * c3 * (h * h) = 0) by nra. apply Rmult_integral in E. destruct E; [lra|nra]. }
  subst c3. assert (A2 : c2 = 0). { assert (E : 2 * c2 * h = 0) by nra. apply Rmult_integral in E. destruct E; lra. }
  subst c2. apply N. rewrite !Q. nra.
Qed.

Lemma thin_moves y jk s k : length y = 600%nat -> make_spline energy_table y jk = Ok s -> (S k < 600)%nat -> 0 < nth k y 0 -> nth k y 0 <> nth (S k) y 0 ->
  exists T th0, energy k < T < energy (S k) /\ 0 < th0 /\
    forall th, 0 < th <= th0 -> exists e, energy_out_sp (Some s) T th = Ok e /\ energy k < e < energy (S k) /\ e <> T /\ exists dr, spline_deriv s T = Ok dr /\ e = T - th / dr.
Proof.
  intros LY MS K YP YN. pose proof MS as MS'. rewrite energy_table_eq in MS.
  destruct (C20_continuous 600 (-3) 7 ltac:(lia) m600 l600 library_grid_spacing y jk s MS) as (f & _ & AT & _ & _ & _ & PC & DV).
  assert (NE : forall i, (i < 600)%nat -> at_ (et_make 600 (-3) 7) i = Some (energy i)).
  { intros i Hi. unfold at_. rewrite <- energy_table_eq. unfold energy. apply nth_error_nth'. rewrite grid_length. exact Hi. }
  destruct (PC k (energy k) (energy (S k)) (NE k ltac:(lia)) (NE (S k) K)) as (q & CQ & QF & QE).
  pose proof (library_grid_spacing k _ _ (NE k ltac:(lia)) (NE (S k) K)) as GAP.
  assert (EPS : 0 < numeric_epsilon) by (rewrite eps_R; lra).
  assert (M0 : energy 0 <= energy k) by (rewrite !energy_G by lia; apply gval_le; [apply n600|apply l600|]; apply le_INR; lia).
  assert (EV : forall x, energy k <= x < energy (S k) - numeric_epsilon -> spline_eval s x = Ok (q x)).
  { intros x X. apply (QE x (energy 0)); [apply NE; lia|lra|lra]. }
  assert (QK : q (energy k) = nth k y 0).
  { rewrite <- QF by lra. apply AT. apply NE. lia. }
  set (hi := energy (S k) - numeric_epsilon) in *.
  assert (HI : energy k < hi) by (unfold hi; lra).
  destruct (near q (energy k) (nth k y 0 / 2) CQ ltac:(lra)) as (d1 & D1 & N1).
  assert (QS : q (energy (S k)) = nth (S k) y 0).
  { rewrite <- QF by lra. apply AT. apply NE. exact K. }
  set (m1 := Rmin d1 (hi - energy k)). assert (M1 : 0 < m1) by (apply Rmin_pos; lra).
  destruct (slope_somewhere q (energy k) (energy k + m1) (energy k) (energy (S k)) CQ ltac:(lra)) as (T & v & TI & VN & VD).
  { rewrite QK, QS. exact YN. }
  assert (T1 : energy k < T /\ T < hi /\ Rabs (T - energy k) < d1).
  { pose proof (Rmin_l d1 (hi - energy k)). pose proof (Rmin_r d1 (hi - energy k)). fold m1 in H, H0. split; [lra|]. split; [lra|]. rewrite Rabs_right; lra. }
  destruct T1 as (TL & TH & TD). specialize (N1 T TD).
  assert (QT : 0 < q T) by (apply Rabs_def2 in N1; lra).
  destruct (make_spline_ok y jk LY) as (s' & MS2 & SO & _). assert (s' = s) by congruence. subst s'.
  assert (GM : forall i j, (i <= j)%nat -> (j < 600)%nat -> energy i <= energy j) by (intros i j IJ J; rewrite !energy_G by lia; apply gval_le; [apply n600|apply l600|]; apply le_INR; lia).
  destruct (DV T) as (dr & DR & FD).
  { intros (i & u & Hu & W). apply at_in in Hu. destruct Hu as [Hi ->]. rewrite <- energy_G in W by lia. unfold hi in TH.
    destruct (Nat.le_gt_cases (S i) k) as [Q|Q]; [pose proof (GM (S i) k Q ltac:(lia)); lra|]. destruct (Nat.eq_dec i k) as [->|Q']; [lra|].
    pose proof (GM (S k) (S i) ltac:(lia) Hi). lra. }
  { intros i Q. apply at_in in Q. destruct Q as [Hi Q]. rewrite <- energy_G in Q by lia.
    destruct (Nat.le_gt_cases i k) as [C|C]; [pose proof (GM i k C ltac:(lia)); lra|pose proof (GM (S k) i ltac:(lia) Hi); unfold hi in TH; lra]. }
  assert (DN : dr <> 0).
  { rewrite (uniqueness_limite f T dr v); [exact VN|exact FD|]. apply (deriv_local _ q T _ (Rmin (T - energy k) (hi - T))); [apply Rmin_pos; lra| |exact VD].
    intros z Z. apply QF. pose proof (Rmin_l (T - energy k) (hi - T)). pose proof (Rmin_r (T - energy k) (hi - T)). apply Rabs_def2 in Z. unfold hi in *. lra. }
  destruct (near q T (5 / 1000000) CQ ltac:(lra)) as (d2 & D2 & N2).
  set (D := / dr). set (m := Rmin d2 (Rmin (T - energy k) (hi - T))).
  assert (MP : 0 < m) by (unfold m; repeat apply Rmin_pos; lra).
  assert (ML : m <= d2 /\ m <= T - energy k /\ m <= hi - T).
  { unfold m. pose proof (Rmin_l d2 (Rmin (T - energy k) (hi - T))). pose proof (Rmin_r d2 (Rmin (T - energy k) (hi - T))).
    pose proof (Rmin_l (T - energy k) (hi - T)). pose proof (Rmin_r (T - energy k) (hi - T)). lra. }
  assert (AD : 0 < Rabs D + 1) by (pose proof (Rabs_pos D); lra).
  set (th0 := Rmin (q T / 2) (Rmin (4 / 1000000) (m / 2 / (Rabs D + 1)))).
  assert (HP : 0 < m / 2 / (Rabs D + 1)) by (apply Rmult_lt_0_compat; [lra|apply Rinv_0_lt_compat; exact AD]).
  exists T, th0.
  split; [unfold hi in TH; lra|]. split; [unfold th0; repeat apply Rmin_pos; lra|].
  intros th [P1 P2].
  assert (B : th <= q T / 2 /\ th <= 4 / 1000000 /\ th <= m / 2 / (Rabs D + 1)).
  { unfold th0 in P2. pose proof (Rmin_l (q T / 2) (Rmin (4 / 1000000) (m / 2 / (Rabs D + 1)))). pose proof (Rmin_r (q T / 2) (Rmin (4 / 1000000) (m / 2 / (Rabs D + 1)))).
    pose proof (Rmin_l (4 / 1000000) (m / 2 / (Rabs D + 1))). pose proof (Rmin_r (4 / 1000000) (m / 2 / (Rabs D + 1))). lra. }
  destruct B as (B1 & B2 & B3). set (e := T - th * D).
  assert (SM : Rabs (th * D) <= m / 2).
  { rewrite Rabs_mult, (Rabs_right th) by lra. apply Rle_trans with (m / 2 / (Rabs D + 1) * (Rabs D + 1)); [|right; field; lra].
    apply Rmult_le_compat; try lra. apply Rabs_pos. }
  assert (ET : Rabs (e - T) < m).
  { unfold e. replace (T - th * D - T) with (- (th * D)) by ring. rewrite Rabs_Ropp. lra. }
  assert (EI : energy k < e < hi) by (apply Rabs_def2 in ET; lra).
  exists e. split; [|split; [unfold hi in EI; lra|split; [|exists dr; split; [exact DR|reflexivity]]]].
  2: { unfold e. assert (0 < th * Rabs D) by (apply Rmult_lt_0_compat; [lra|apply Rabs_pos_lt; unfold D; now apply Rinv_neq_0_compat]). intros Q. assert (Q' : th * D = 0) by lra. apply Rmult_integral in Q'. destruct Q' as [Q'|Q']; [lra|]. rewrite Q', Rabs_R0 in H. lra. }
  unfold energy_out_sp, energy_out_fn. cbn [interp_eval interp_deriv]. rewrite EV by lra. cbn [bind]. rewrite DR. cbn [bind]. cbv zeta. numR.
  destruct (Rleb_spec (q T) th) as [X|_]; [lra|].
  replace (T - th * (Rlit 1.0 / dr)) with e by (unfold e, D; replace (Rlit 1.0) with 1 by (dec_norm; lra); unfold Rdiv; ring).
  assert (NW : forall n dd, newton (F:=R) (spline_eval s) (spline_deriv s) (q T) th n e dd = Ok e).
  { intros n dd. destruct n; cbn [newton]; rewrite EV by lra; cbn [bind]; cbv zeta; numR.
    all: match goal with |- (if Rltb ?a ?b then _ else _) = _ => assert (L : a < b); [|destruct (Rltb_spec a b); [reflexivity|lra]] end.
    all: specialize (N2 e ltac:(lra)); unfold Eout_th_epsilon; numR; apply Rabs_def2 in N2; apply Rabs_def1; dec_norm; lra. }
  apply NW.
Qed.

Lemma passing_at i lo hi : (1 <= i)%nat -> (S i < 600)%nat -> 1 / 1000 <= lo -> hi <= 60000 -> lo <= energy i -> energy (S i) <= hi ->
  exists T th, lo < T < hi /\ 0 < th /\
  forall cd, exists r w', calculate junk0 (carbon T) (water th) conf (with_default cd world0) = Ok (r, w') /\ lo < r_Eout r < hi /\ r_Eout r <> T.
Proof.
  intros I0 I1 LO HI E1 E2.
  destruct (lookup_total junk0 (carbon 1) (water 1) conf world0) as (d & w1 & L & OD & OW & _); auto using world_ok0 with cases.
  destruct (lookup_made junk0 [] world0 (carbon 1) (water 1) conf d w1) as (RT & k & s & MS & SP); auto with cases.
  destruct (C52_ranges (carbon 1) (water 1) conf (dp_range d) (carbon_isotope 1) ltac:(cbn; lra) (water_known 1) (default_charge 6) RT) as [Z0 INC].
  assert (LEN : length (dp_range d) = 600%nat).
  { destruct (straggling_table_ok (carbon 1) (water 1) conf) as (st & ST & _); [apply legit_key; auto with cases|].
    destruct (angular_table_ok (carbon 1) (water 1) conf) as (at_ & AT & _); [apply legit_key; auto with cases|].
    apply (C28_differences (carbon 1) (water 1) conf _ _ _ RT ST AT). }
  assert (YP : 0 < nth i (dp_range d) 0) by (rewrite <- Z0 at 1; apply INC; lia).
  assert (YN : nth i (dp_range d) 0 <> nth (S i) (dp_range d) 0) by (apply Rlt_not_eq, INC; lia).
  destruct (thin_moves (dp_range d) (junk0 k) s i LEN MS ltac:(lia) YP YN) as (T & th & TT & TP & EO).
  exists T, th. split; [lra|]. split; [exact TP|]. intros cd. destruct (EO th ltac:(lra)) as (e & EE & EB).
  assert (L' : exists d' w', lookup junk0 (carbon T) (water th) conf (with_default cd world0) = Ok (d', w') /\ dp_range_spline d' = Some s).
  { pose proof (lookup_T junk0 world0 (carbon 1) T th (water 1) conf wf_world0) as S.
    rewrite L in S. change (at_T (carbon 1) T) with (carbon T) in S. change (set_thickness (water 1) th) with (water th) in S.
    rewrite lookup_default. destruct (lookup junk0 (carbon T) (water th) conf world0) as [[d' w']|]; [|contradiction].
    exists d', (with_default cd w'). split; [reflexivity|]. cbn [osim fst] in S. destruct S as (_ & _ & _ & E & _). congruence. }
  destruct L' as (d' & w' & L' & ED).
  assert (BT : forall x, x < hi -> below_top x) by (intros x X; apply top_above; lra).
  assert (WD : world_ok (with_default cd world0)) by exact world_ok0.
  destruct (calculate_good junk0 (carbon T) (water th) conf (with_default cd world0)) as (r & w2 & H & _); auto with cases.
  { apply BT. cbn [pT carbon]. lra. }
  { intros e' we HE. unfold energy_out in HE. rewrite L' in HE. cbn [bind pT carbon m_th water] in HE.
    rewrite ED, EE in HE. cbn [bind] in HE. injection HE as <- _. apply BT. lra. }
  exists r, w2. split; [exact H|].
  destruct (C12_agrees junk0 _ _ _ _ _ _ H) as (wx & _ & _ & _ & HE).
  - apply not_true_is_false. rewrite too_low_R. cbn [pT carbon]. lra.
  - unfold energy_out in HE. rewrite L' in HE. cbn [bind pT carbon m_th water] in HE. rewrite ED, EE in HE. cbn [bind] in HE.
    assert (X : Ok (e, w') = Ok (r_Eout r, wx)).
    { apply HE. rewrite lit0'. numR. apply Reqb_false. lra. }
    replace (r_Eout r) with e by congruence. split; [lra|apply EB].
Qed.

(** the same call, with two default configs: everything but the time of flight is the same *)
Theorem C13_tof_changes : exists p t c cd1 cd2 r1 w1 r2 w2,
  calculate junk0 p t c (with_default cd1 world0) = Ok (r1, w1) /\ calculate junk0 p t c (with_default cd2 world0) = Ok (r2, w2) /\
  same_but_tof r1 r2 /\ r_tof r1 <> r_tof r2.
Proof.
  destruct energy_280 as [E1 E2]. destruct (passing_at 280 30 100 ltac:(lia) ltac:(lia) ltac:(lra) ltac:(lra) E1 E2) as (T & th & TT & TP & PASS).
  set (nb := mkConfig z_pierce_blann no_barkas 1 srim_85 sc_atima 1). destruct (PASS conf) as (r1 & w1 & H1 & B1 & L1). destruct (PASS nb) as (r2 & w2 & H2 & B2 & L2).
  exists (carbon T), (water th), conf, conf, nb, r1, w1, r2, w2. split; [exact H1|]. split; [exact H2|].
  assert (SB : same_but_tof r1 r2) by (apply (C13_default_config junk0 _ _ _ nb _ _ _ _ _ H1 H2)). split; [exact SB|].
  assert (EE : r_Eout r2 = r_Eout r1) by (destruct SB; symmetry; tauto).
  assert (HT : 1 / 1000 - 10 / 4503599627370496 <= pT (carbon T)) by (cbn [pT carbon]; lra).
  assert (H0 : m_th (water th) <> 0) by (cbn [m_th water]; lra).
  pose proof (C13_tof _ _ _ _ _ _ _ HT H0 H1) as T1. pose proof (C13_tof _ _ _ _ _ _ _ HT H0 H2) as T2.
  destruct (Rlt_dec (r_Eout r1) (1 / 1000)); [lra|]. destruct (Rlt_dec (r_Eout r2) (1 / 1000)); [lra|].
  rewrite EE in T2. assert (TL : forall T' E tof tof', 30 <= E < T' -> T' <= 100 -> calculate_tof_from_E (carbon T') E (water th) conf = Ok tof -> calculate_tof_from_E (carbon T') E (water th) nb = Ok tof' -> tof < tof').
  { intros T' E tof tof' EL TU X X'. apply (C13_tof_barkas (carbon T') E (water th) conf nb); try assumption.
    - apply carbon_isotope.
    - cbn. lra.
    - apply water_known.
    - cbn. lra.
    - intros x t X0 _. change (at_T (carbon T') x) with (carbon x). destruct (C40_pierce_blann 12 6 6 t conf eq_refl ltac:(lra)) as [P0 P]. specialize (P0 0 ltac:(lra)). specialize (P 0 x ltac:(lra) X0). unfold carbon. lra.
    - unfold without_barkas. repeat split; reflexivity.
    - cbn [pT carbon]. lra. }
  destruct (Rlt_le_dec (r_Eout r1) T) as [L|L].
  - apply Rlt_not_eq. apply (TL T (r_Eout r1)); try assumption; lra.
  - apply Rgt_not_eq, Rlt_gt. apply tof_swap in T1. apply tof_swap in T2. apply Ropp_lt_cancel. apply (TL (r_Eout r1) T); try assumption; lra.
Qed.
Print Assumptions C13_tof_changes.
