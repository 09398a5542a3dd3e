(** * C65, protons behind layers of nitrogen *)
From Coq Require Import ZArith QArith Reals Qreals List Bool Lra Lia.
From Verif Require Import Num NumR Structures DataQuadrature EnergyTable Spline Integrator Calculations Storage Catima Cases SpecData CacheProofs CacheFresh History KeyEq ApiCache GridProofs QuadProofs BoundsProofs TotalProofs ApiTotal LayerProofs EnergyOutProofs
  PropGrid PropSpline PropQuad PropTables PropMaterial PropKin PropDedx PropCache PropEnergyOut PropLayers PropTof PropResult PropApi PropCorr PropStrag BetheProofs BetheBracket LnBounds PropLSTable Near
  ProtonStopping ProtonLindhard ProtonHigh ProtonBethe PropMono PropMonoApi PropMonoProton ProtonStrag ProtonOmega PropMonoStrag PropMonoOut.
Import ListNotations.
Local Open Scope R_scope.

Lemma energy_380 : 2207 <= energy 380 <= 2208 /\ 2294 <= energy 381 <= 2295.
Proof.
  rewrite !energy_exp by lia. rewrite !INR_IZR_INZ. cbn [Z.of_nat Pos.of_succ_nat Pos.succ].
  assert (L : 23025850 / 10000000 <= LN10_ (F:=R) <= 23025852 / 10000000) by (unfold LN10_; numR; dec_norm; lra). set (l := LN10_ (F:=R)) in *. clearbody l.
  pose proof (ln_between 2207 1 7699389 7699390 ltac:(vm_compute; reflexivity)) as L1. pose proof (ln_between 2208 1 7699842 7699843 ltac:(vm_compute; reflexivity)) as L2. pose proof (ln_between 2294 1 7738052 7738053 ltac:(vm_compute; reflexivity)) as L3.
  pose proof (ln_between 2295 1 7738488 7738489 ltac:(vm_compute; reflexivity)) as L4.
  assert (EM : forall a y, 0 < a -> (y <= ln a -> exp y <= a) /\ (ln a <= y -> a <= exp y)) by (intros a y A; split; intros H; rewrite <- (exp_ln a) by exact A; apply exp_mono; exact H).
  replace (2207 / 1) with 2207 in L1 by field. replace (2208 / 1) with 2208 in L2 by field. replace (2294 / 1) with 2294 in L3 by field. replace (2295 / 1) with 2295 in L4 by field.
  repeat split; apply EM; lra.
Qed.

Section Settings.
Variable c : Config R.
Hypothesis US : usual c.
Variables rho th : R.
(** the stopping power between these two energies *)
Lemma stop_380 x d : energy 380 < x < energy 381 -> dedx (proton_at x) (gas rho th) c = Ok d -> 0 < d <= 1906 / 1000.
Proof.
  intros X D. destruct energy_380 as (N1 & N2). destruct US as [HZ HL]. assert (HL' := HL). apply Z.eqb_neq in HL'.
  assert (EN : energy 599 = exp (LN10_ (F:=R) * 7)) by (rewrite energy_exp by lia; f_equal; rewrite INR_IZR_INZ; cbn [Z.of_nat Pos.of_succ_nat Pos.succ]; field). pose proof (energy_le 381 599 ltac:(lia) ltac:(lia)) as EL.
  assert (IN : inside c x) by (apply (value_inside c rho th x d); [lra|rewrite <- EN; lra|exact D]). rewrite (dedx_value c HZ HL' rho th x ltac:(lra) (fun _ => IN)) in D. apply ok_inj in D. fold (stop c rho th x) in D. rewrite <- D. clear d D.
  pose proof (charge_range c HZ x ltac:(lra)) as C. assert (E1 : 1028 / 100 <= eta2 x).
  { unfold eta2. assert (236 / 100 <= x / u0) by (apply (Rmult_le_reg_r u0); [apply u0_pos|]; unfold Rdiv; rewrite !Rmult_assoc, Rinv_l by (pose proof u0_pos; lra); unfold u0; lra). set (t := x / u0) in *. clearbody t. nra. }
  pose proof (eta2_upper x 2300 ltac:(lra) ltac:(lra)) as EU. assert (E2 : eta2 x <= 11036 / 1000) by (unfold u0 in EU; lra). destruct (stop_high c HZ rho th x ltac:(lra) IN ltac:(lra)) as (n & SH & NB). destruct (bracket_mid c HZ x IN ltac:(lra)) as (EB & _ & BK & LB).
  destruct (raw_facts c x ltac:(lra)) as [[_ R1] R0]. assert (BU : bare_log (eta2 x) <= 110 / 10).
  { unfold bare_log. pose proof (ln_between 137600 1 11832000 11833000 ltac:(vm_compute; reflexivity)) as L. replace (137600 / 1) with 137600 in L by field. pose proof (ln_le_mono (1021997856 / 82000 * eta2 x) 137600 ltac:(lra) ltac:(lra)).
    assert (9 / 10 <= eta2 x / (1 + eta2 x)) by (apply (Rmult_le_reg_r (1 + eta2 x)); [lra|]; replace (eta2 x / (1 + eta2 x) * (1 + eta2 x)) with (eta2 x) by (field; lra); lra). lra. }
  assert (BR : 0 < bracket c x <= 113 / 10) by (destruct (bracket_close c HZ x x ltac:(lra) ltac:(lra) ltac:(lra) IN ltac:(lra)) as (P & _); split; [exact P|]; rewrite EB; set (r := raw_log c x 82 7) in *; set (k := barkas c x) in *; clearbody r k; nra).
  assert (W : 0 < / eta2 x <= 973 / 10000) by (split; [apply Rinv_0_lt_compat; lra|]; apply Rle_trans with (/ (1028 / 100)); [apply Rinv_le_contravar; lra|lra]).
  assert (C2 : 994 / 1000 <= charge c x * charge c x <= 1) by (split; nra). unfold high in SH. rewrite dedx_constant_val in SH.
  set (q := charge c x * charge c x) in *. set (s := stop c rho th x) in *. set (v := / eta2 x) in *. set (b := bracket c x) in *. clearbody q s v b. clear EU C IN BU R1 R0 EB BK LB.
  assert (V : 0 < (1 + v) * b <= 10973 / 10000 * (113 / 10)) by (split; [apply Rmult_lt_0_compat; lra|apply Rmult_le_compat; lra]). set (p := (1 + v) * b) in *. clearbody p.
  assert (V2 : 0 < q * p <= 10973 / 10000 * (113 / 10)) by (split; [apply Rmult_lt_0_compat; lra|]; apply Rle_trans with (1 * p); [apply Rmult_le_compat_r; lra|lra]). set (g := q * p) in *. clearbody g.
  rewrite SH; split; [apply Rmult_lt_0_compat; lra|]; apply Rle_trans with (19039 / 10000 * (1001 / 1000)); [apply Rmult_le_compat; lra|lra].
Qed.
(** the range grows by more than 44 g/cm2 between them *)
Lemma range_380 rt : range_table proton (gas rho th) c = Ok rt -> 44 <= nth 381 rt 0 - nth 380 rt 0.
Proof.
  intros RT. destruct energy_380 as (N1 & N2). pose proof (scaled_nth _ _ _ RT) as (_ & _ & ND). destruct (ND 380%nat ltac:(lia)) as (r & E & ->). destruct C26_library as [IN LIB]. rewrite LIB in E. change (pA proton) with 1. rewrite Rmult_1_l.
  assert (EI : energy 380 < energy 381) by lra.
  destruct (C26_exact 8 GL8_x GL8_w (fun _ => 1000 / 1906) (fun x => 1000 / 1906 * x) (energy 380) (energy 381) [1000 / 1906] IN (Rlt_le _ _ EI) ltac:(cbn [length]; lia)) as (J & EJ & BJ).
  - intros t. cbn. ring.
  - intros x _. set (k := 1000 / 1906). replace (derivable_pt_lim (fun x => k * x) x k) with (derivable_pt_lim (mult_real_fct k id) x (k * 1)) by (rewrite Rmult_1_r; reflexivity). apply derivable_pt_lim_scal, derivable_pt_lim_id.
  - assert (JR : J <= r).
    { refine (C26_monotone _ _ _ _ _ _ _ IN (Rlt_le _ _ EI) _ EJ E). intros x u v X Q V. injection Q as <-. unfold fdedx in V. change (at_T proton x) with (proton_at x) in V. apply bind_ok in V. destruct V as (d & D & V). apply ok_inj in V. rewrite <- V. numR.
      destruct (stop_380 x d X D) as [D0 D1]. replace (Rlit 1.0) with 1 by (dec_norm; lra). apply (Rmult_le_reg_r d); [exact D0|]. replace (1 / d * d) with 1 by (field; lra). lra. }
    assert (SZ : size [1000 / 1906] <= 1) by (unfold size; cbn [fold_right map]; rewrite Rabs_pos_eq by lra; lra). apply abs_in in BJ. apply Rle_trans with J; [|exact JR].
    assert (P20 : / 10 ^ 20 * size [1000 / 1906] <= / 1000). { apply Rle_trans with (/ 10 ^ 20 * 1); [apply Rmult_le_compat_l; [left; apply Rinv_0_lt_compat, pow_lt; lra|exact SZ]|]. rewrite Rmult_1_r. apply Rinv_le_contravar; [lra|]. replace 20%nat with (3 + 17)%nat by lia. rewrite pow_add. pose proof (pow_R1_Rle 10 17 ltac:(lra)). lra. }
    set (z := / 10 ^ 20 * size [1000 / 1906]) in *. clearbody z. assert ((energy 381 - energy 380) / 2 * z <= (energy 381 - energy 380) / 2 * / 1000) by (apply Rmult_le_compat_l; lra). lra.
Qed.
End Settings.

(** after any calls: a layer of at most 3 mg/cm2 of nitrogen takes from a proton of 2210 to 2290 MeV its thickness times the stopping power *)
Theorem C65_proton_thin junk h w rho th c T : usual c -> small_junk junk -> exec_all junk h world0 = Ok w -> world_ok w -> 2210 <= T <= 2290 -> 0 <= th <= 3 / 1000 ->
  exists e w1 d, energy_out junk (proton_at T) (gas rho th) c w = Ok (e, w1) /\ dedx_from_range junk (proton_at T) (gas rho th) c w1 = Ok (d, w1) /\ e = T - th * d /\ 0 < d < 14.
Proof.
  intros U SJ EH OW TT TH. destruct energy_380 as (N1 & N2). destruct (proton_table rho th c U) as (rt & RT & G). pose proof (range_380 c U rho th rt RT) as RI.
  assert (SG : nth 381 rt 0 - nth 380 rt 0 = chord_slope energy_table rt 380 * (energy 381 - energy 380)) by (unfold chord_slope; fold (energy 381) (energy 380); field; lra).
  assert (SL : 5 / 10 <= chord_slope energy_table rt 380) by (apply (Rmult_le_reg_r (energy 381 - energy 380)); [lra|]; rewrite <- SG; lra).
  pose proof (exec_all_wf junk h w EH) as W. destruct (lookup_total junk (proton_at T) (gas rho th) c w (legit_at proton T proton_legit) (gas_legit _ _) OW) as (d & w1 & L & _).
  destruct (lookup_made junk h w (proton_at T) (gas rho th) c d w1 EH (legit_at proton T proton_legit) (gas_legit _ _) L) as (RT' & k & s & MS & SP). change (range_table (proton_at T)) with (range_table proton) in RT'. assert (rt = dp_range d) by congruence. subst rt. clear RT'.
  destruct (SJ k) as [J0 J1]. pose proof (scaled_nth _ _ _ RT) as (_ & Z0 & _). assert (Y0 : 0 <= nth 0 (dp_range d) 0) by (rewrite Z0; lra). assert (EP : numeric_epsilon <= 1 / 1000) by (rewrite eps_R; lra).
  set (sg := chord_slope energy_table (dp_range d) 380) in *. assert (B : 15 / 100 * (5 / 10) * 2 <= 15 / 100 * sg * (T - energy 380)) by (apply Rmult_le_compat; lra).
  destruct (C65_thin_layer (dp_range d) (junk k) s J0 J1 MS G 380 T th Y0 ltac:(lia) ltac:(lia) ltac:(lra) ltac:(lra) ltac:(fold sg; lra)) as (dr & DR & DB & EO); [apply Rle_trans with (37 * (3 / 1000 * (3 / 1000))); [apply Rmult_le_compat_l; [lra|apply Rmult_le_compat; lra]|lra]|].
  fold sg in DB. exists (T - th / dr), w1, (1 / dr). split; [|split; [|split]].
  - unfold energy_out. rewrite L. cbn [bind proton_at pT gas m_th]. rewrite SP, EO. reflexivity.
  - pose proof (laterE junk (proton_at T) (gas rho th) c w d w1 W L T) as L2. change (at_T (proton_at T) T) with (proton_at T) in L2. unfold dedx_from_range. rewrite L2. cbn [bind]. rewrite SP. cbn [interp_deriv proton_at pT pA]. rewrite DR. cbn [bind]. numR. reflexivity.
  - field. lra.
  - assert (P : 0 < / dr <= / (75 / 1000)) by (split; [apply Rinv_0_lt_compat; lra|apply Rinv_le_contravar; lra]). lra.
Qed.
Print Assumptions C65_proton_thin.

(** two layers, 1 and 2 mg/cm2 thick, in front of a proton of 2250 MeV: both let it pass, the thicker one with less energy *)
Example C65_thicker_case : exists e1 w1 e2 w2, energy_out junk0 (proton_at 2250) (gas (1 / 800) (1 / 1000)) conf world0 = Ok (e1, w1) /\ energy_out junk0 (proton_at 2250) (gas (1 / 800) (2 / 1000)) conf w1 = Ok (e2, w2) /\
  2249 < e2 < e1 + 20 * numeric_epsilon /\ e1 < 2250 + 20 * numeric_epsilon.
Proof.
  assert (SJ : small_junk junk0) by (intros k; cbn [junk0 fst snd]; rewrite Rabs_R0; lra). destruct (proton_table (1 / 800) (1 / 1000) conf usual_default) as (rt & RT & G).
  destruct (C65_proton_thin junk0 [] world0 (1 / 800) (1 / 1000) conf 2250 usual_default SJ eq_refl world_ok0 ltac:(lra) ltac:(lra)) as (e1 & w1 & d1 & H1 & _ & E1 & D1).
  assert (EH : exec_all junk0 ([] ++ [CEnergyOut (proton_at 2250) (gas (1 / 800) (1 / 1000)) conf]) world0 = Ok w1) by (eapply exec_all_snoc; [reflexivity|]; unfold exec, one; rewrite H1; reflexivity).
  assert (OW : world_ok w1) by (destruct (energy_out_good junk0 (proton_at 2250) (gas (1 / 800) (1 / 1000)) conf world0 (legit_at proton 2250 proton_legit) (gas_legit _ _) world_ok0) as (a & w' & Q & O & _); assert (w' = w1) by congruence; subst; exact O).
  destruct (C65_proton_thin junk0 _ w1 (1 / 800) (2 / 1000) conf 2250 usual_default SJ EH OW ltac:(lra) ltac:(lra)) as (e2 & w2 & d2 & H2 & _ & E2 & D2).
  exists e1, w1, e2, w2. split; [exact H1|]. split; [exact H2|]. split; [split; [lra|]|].
  - apply (C65_thicker_layer junk0 SJ [] world0 proton (gas (1 / 800) (1 / 1000)) conf rt 2250 (1 / 1000) (2 / 1000) e1 w1 e2 w2 eq_refl proton_legit RT G H1 H2); lra.
  - apply (C65_energy_out junk0 [] world0 (proton_at 2250) (gas (1 / 800) (1 / 1000)) conf rt e1 w1 SJ eq_refl (legit_at proton 2250 proton_legit) RT G); [cbn [gas m_th]; lra|exact H1|lra|lra].
Qed.
