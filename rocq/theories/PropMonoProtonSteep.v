(** * C65, protons behind layers of nitrogen: how exact the energy is *)
From Coq Require Import ZArith QArith Reals Qreals List Bool Lra Lia.
From Verif Require Import Num NumR Structures DataQuadrature EnergyTable Spline Integrator Calculations Storage Catima Cases SpecData CacheProofs CacheFresh History KeyEq ApiCache GridProofs QuadProofs BoundsProofs TotalProofs ApiTotal LayerProofs EnergyOutProofs
  PropGrid PropSpline PropQuad PropTables PropMaterial PropKin PropDedx PropCache PropEnergyOut PropLayers PropTof PropResult PropApi PropCorr PropStrag BetheProofs BetheBracket LnBounds PropLSTable PropFormula Near
  ProtonStopping ProtonLindhard ProtonHigh ProtonBethe PropMono PropMonoApi PropMonoProton ProtonStrag ProtonOmega PropMonoStrag PropMonoOut PropMonoProtonOut PropMonoSteep.
Import ListNotations.
Local Open Scope R_scope.

(** ** The stopping power is nowhere above 1900 MeV cm2/g *)
Lemma snr_max e : 0 < e -> snr e <= 6 / 10.
Proof.
  intros E. unfold snr. destruct (Rle_dec e 30) as [L|L].
  - pose proof (ln_upper (1 + 11383 / 10000 * e) ltac:(lra)) as U. pose proof (exp_pos (21226 / 100000 * ln e)) as A. fold (Rpower e (21226 / 100000)) in A. pose proof (exp_pos (1 / 2 * ln e)) as B. fold (Rpower e (1 / 2)) in B.
    set (p := Rpower e (21226 / 100000)) in *. set (q := Rpower e (1 / 2)) in *. clearbody p q. set (d := 2 * _). assert (D : 2 * e <= d) by (unfold d; lra). clearbody d.
    apply (Rmult_le_reg_r d); [lra|]. unfold Rdiv at 1. rewrite Rmult_assoc, Rinv_l by lra. lra.
  - pose proof (ln_upper e ltac:(lra)) as U. apply (Rmult_le_reg_r (2 * e)); [lra|]. unfold Rdiv at 1. rewrite Rmult_assoc, Rinv_l by lra. lra.
Qed.
Lemma nuclear_max rho th T : 0 < T -> dedx_n (F:=R) (proton_at T) (gas rho th) <= 110.
Proof.
  intros T0. destruct (nuclear_form rho th) as (K & M & V). rewrite V by exact T0. pose proof (snr_max (nuc_m * T) ltac:(now apply Rmult_lt_0_compat)) as S.
  assert (K1 : nuc_k <= 175).
  { unfold nuc_k. rewrite Avogadro_val. assert (W : 1 <= nuc_w).
    { unfold nuc_w. pose proof (Rpow_pos_gt0 7 (Rlit 0.23) ltac:(lra)) as P. rewrite (Rpow_pos 1) by lra. unfold Rpower. rewrite ln_1, Rmult_0_r, exp_0. lra. }
    set (w := nuc_w) in *. clearbody w. apply (Rmult_le_reg_r (15 * w * 14)); [lra|]. unfold Rdiv at 1. rewrite Rmult_assoc, Rinv_l by lra. lra. }
  set (s := snr _) in *. clearbody s. apply Rle_trans with (nuc_k * (6 / 10)); [apply Rmult_le_compat_l; lra|lra].
Qed.
Lemma sfit_below e : sfit e <= sl e \/ sh e <= 0.
Proof.
  pose proof (sl_pos e) as A. destruct (Rle_dec (sh e) 0) as [B|B]; [now right|left]. unfold sfit. apply (Rmult_le_reg_r (sl e + sh e)); [lra|]. unfold Rdiv. rewrite Rmult_assoc, Rinv_l by lra. nra.
Qed.
Lemma sfit_max e : 25 <= e -> sfit e <= 40.
Proof.
  intros E. pose proof (log_term e ltac:(lra)) as LT. pose proof (sl_pos e) as A. assert (P : 1 <= Rpower e (255 / 10000)) by (rewrite <- (Rpower_O e) by lra; apply Rle_Rpower; lra).
  assert (SH0 : 0 < sh e).
  { unfold sh. apply Rmult_lt_0_compat; [|lra]. apply Rdiv_lt_0_compat; [lra|apply exp_pos]. }
  assert (HALF : sfit e <= sl e /\ sfit e <= sh e).
  { unfold sfit. split; apply (Rmult_le_reg_r (sl e + sh e)); try lra; unfold Rdiv; rewrite Rmult_assoc, Rinv_l by lra; nra. }
  destruct (Rle_dec e 200) as [L|L].
  - apply Rle_trans with (sl e); [apply HALF|]. unfold sl.
    assert (Q : forall y, 0 <= y -> y <= 1 / 2 -> Rpower e y <= 29 / 2 /\ (y <= 1 / 3 -> Rpower e y <= 7)).
    { intros y Y0 Y1. split; [|intros Y2].
      - apply Rle_trans with (Rpower e (/ 2)); [apply Rle_Rpower; lra|]. rewrite Rpower_sqrt by lra. apply Rsqr_incr_0_var; [|lra]. rewrite Rsqr_sqrt by lra. unfold Rsqr. lra.
      - apply Rle_trans with (Rpower e (1 / 3)); [apply Rle_Rpower; lra|]. apply Rle_trans with (Rpower (7 ^ 3) (1 / 3)); [apply Rle_Rpower_l; lra|]. rewrite <- Rpower_pow by lra. rewrite Rpower_mult. replace (INR 3 * (1 / 3)) with 1 by (cbn [INR]; field). rewrite Rpower_1 by lra. lra. }
    destruct (Q (50837 / 10000000) ltac:(lra) ltac:(lra)) as [_ Q1]. destruct (Q (30612 / 100000) ltac:(lra) ltac:(lra)) as [_ Q2]. specialize (Q1 ltac:(lra)). specialize (Q2 ltac:(lra)). lra.
  - apply Rle_trans with (sh e); [apply HALF|]. unfold sh. replace (10255 / 10000) with (1 + 255 / 10000) by lra. rewrite Rpower_plus, Rpower_1 by lra. set (p := Rpower e (255 / 10000)) in *. clearbody p.
    assert (LN : ln (48921 / 10 / e + 16006 / 1000000 * e) <= 3327 / 1000 + 16006 / 1000000 / (2766 / 100) * (e - 200)).
    { assert (D : 48921 / 10 / e <= 48921 / 2000) by (unfold Rdiv; apply Rle_trans with (48921 * / 10 * / 200); [apply Rmult_le_compat_l; [lra|]; apply Rinv_le_contravar; lra|lra]). assert (D0 : 0 < 48921 / 10 / e) by (apply Rdiv_lt_0_compat; lra). set (d := 48921 / 10 / e) in *. clearbody d.
      pose proof (ln_between 2767 100 3320000 3321000 ltac:(vm_compute; reflexivity)) as B. set (v := d + 16006 / 1000000 * e) in *. assert (V : v <= 2767 / 100 + 16006 / 1000000 * (e - 200)) by (unfold v; lra). assert (V0 : 0 < v) by (unfold v; lra). clearbody v.
      replace v with (2767 / 100 * (v / (2767 / 100))) by (field). rewrite ln_mult by lra. pose proof (ln_upper (v / (2767 / 100)) ltac:(lra)). lra. }
    set (l := ln _) in *. clearbody l. apply (Rmult_le_reg_r (e * p)); [nra|]. replace (23942 / 10 / (e * p) * l * (e * p)) with (23942 / 10 * l) by (field; split; lra).
    apply Rle_trans with (40 * e); [lra|]. nra.
Qed.
Lemma low_max T : 0 < T -> low T <= 1721.
Proof.
  intros T0. unfold low. rewrite Avogadro_val. assert (S : sez T <= 40); [|lra]. unfold sez. pose proof (sfit_max (Rmax (1000 * T) 25) ltac:(apply Rmax_r)) as A.
  assert (B : 0 < Rpower (Rmin (1000 * T) 25 / 25) (45 / 100) <= 1).
  { split; [apply exp_pos|]. assert (M : 0 < Rmin (1000 * T) 25) by (unfold Rmin; destruct (Rle_dec (1000 * T) 25); lra). pose proof (Rmin_r (1000 * T) 25) as M1.
    assert (ONE : Rpower 1 (45 / 100) = 1) by (unfold Rpower; rewrite ln_1, Rmult_0_r, exp_0; reflexivity). rewrite <- ONE. apply Rle_Rpower_l; lra. }
  set (f := sfit _) in *. set (p := Rpower _ _) in *. clearbody f p. destruct (Rle_dec f 0); nra.
Qed.
Section Settings.
Variable c : Config R.
Hypothesis HZ : c_zeff c = z_none \/ c_zeff c = z_pierce_blann.
Hypothesis HL : (c_low c =? srim_95)%Z = false.
Lemma dens_lower x : - 3 <= dens x.
Proof.
  unfold dens. destruct (Rlt_dec x (17378 / 10000)); [lra|]. destruct (Rle_dec x (41323 / 10000)) as [L|L]; [|lra].
  pose proof (dpow_any (41323 / 10000 - x) ltac:(lra)). lra.
Qed.
Lemma high_max T : inside c T -> T <= 10010000 -> high c T <= 250.
Proof.
  intros IN TE. pose proof IN as [T10 _]. destruct (LS_range c T IN) as [LS1 _]. destruct (raw_facts c T T10) as [[_ R1] R0]. pose proof (barkas_bounds c HZ T T10) as BK. pose proof (dens_lower (logm T)) as D. pose proof (charge_range c HZ T T10) as C.
  pose proof (inv_eta2 T T10) as W. pose proof (eta2_upper T 10010000 ltac:(lra) TE) as EU. assert (E0 : 0 < eta2 T) by (apply eta2_pos; lra).
  assert (BL : bare_log (eta2 T) <= 285 / 10).
  { unfold bare_log. assert (F : 0 <= eta2 T / (1 + eta2 T)) by (apply Rmult_le_pos; [lra|left; apply Rinv_0_lt_compat; lra]).
    assert (Q : eta2 T <= 116000000) by (apply Rle_trans with (10010000 / u0 * (2 + 10010000 / u0)); [exact EU|unfold u0; lra]).
    pose proof (ln_between 1446000000000 1 27000000 28500000 ltac:(vm_compute; reflexivity)) as L. replace (1446000000000 / 1) with 1446000000000 in L by field. pose proof (ln_le_mono (1021997856 / 82000 * eta2 T) 1446000000000 ltac:(lra) ltac:(lra)). lra. }
  assert (BR : bracket c T <= 31).
  { unfold bracket. set (r := raw_log c T 82 7) in *. set (b := barkas c T) in *. set (l := LS c T) in *. set (d := dens _) in *. clearbody r b l d. assert (r * b <= 287 / 10 * (1004 / 1000)) by (apply Rmult_le_compat; lra). lra. }
  assert (B0 : 0 < bracket c T) by (destruct (bracket_near c HZ T T T10 ltac:(lra) ltac:(lra) IN) as [(P & _) _]; exact P).
  unfold high. rewrite dedx_constant_val. assert (C2 : 0 <= charge c T * charge c T <= 1) by (split; nra). set (q := charge c T * charge c T) in *. set (b := bracket c T) in *. set (v := / eta2 T) in *. clearbody q b v.
  assert (V : 0 <= (1 + v) * b <= (1 + 464 / 10) * 31) by (split; [apply Rmult_le_pos; lra|apply Rmult_le_compat; lra]). set (p := (1 + v) * b) in *. clearbody p. assert (q * p <= 1 * ((1 + 464 / 10) * 31)) by (apply Rmult_le_compat; lra). lra.
Qed.
Lemma full_max T : inside c T -> T <= 10010000 -> full c T <= 400.
Proof.
  intros IN TE. pose proof (high_max T IN TE) as H. unfold full. destruct (Rltb_spec 50000 T) as [L|L]; cbn [andb]; [|lra]. destruct (negb _); [|lra].
  rewrite pair_value, brems_value by lra. pose proof (lorentz_gas T ltac:(lra)) as G. pose proof (pairL_range (lorentz T) G) as PL. pose proof pairK_range as PK. pose proof bremsK_range as BK. pose proof bremsB_range as BB.
  set (g := lorentz T) in *. set (p := pairL g) in *. clearbody g p. set (k := pairK) in *. set (k2 := bremsK) in *. set (b := bremsB) in *. clearbody k k2 b.
  assert (A1 : 0 <= k * g <= 2 / 100000 * 10800) by (split; [apply Rmult_le_pos; lra|apply Rmult_le_compat; lra]). assert (A2 : k * g * p <= 2 / 100000 * 10800 * (107 / 10)) by (apply Rmult_le_compat; lra).
  assert (A3 : 0 <= k2 * g <= 2 / 1000000 * 10800) by (split; [apply Rmult_le_pos; lra|apply Rmult_le_compat; lra]). assert (BG : 0 < b * g <= 1 / 2 * 10800) by (split; [apply Rmult_lt_0_compat; lra|apply Rmult_le_compat; lra]).
  pose proof (ln_upper (1 + b * g) ltac:(lra)) as LU. assert (L0 : 0 <= ln (1 + b * g)) by (rewrite <- ln_1; apply ln_le_mono; lra). set (l := ln _) in *. clearbody l.
  assert (k2 * g * l <= 2 / 1000000 * 10800 * 5400) by (apply Rmult_le_compat; lra). lra.
Qed.
Lemma stop_max rho th x d : 0 < x -> x < energy 599 -> dedx (proton_at x) (gas rho th) c = Ok d -> d <= 1900.
Proof.
  intros X XE D. assert (EN : energy 599 = exp (LN10_ (F:=R) * 7)) by (rewrite energy_exp by lia; f_equal; rewrite INR_IZR_INZ; cbn [Z.of_nat Pos.of_succ_nat Pos.succ]; field). pose proof end_upper as EU. rewrite <- EN in EU.
  assert (IN : 10 < x -> inside c x) by (intros H; apply (value_inside c rho th x d); [lra|rewrite <- EN; exact XE|exact D]). rewrite (dedx_value c HZ HL rho th x X IN) in D. apply ok_inj in D. rewrite <- D. clear d D.
  pose proof (nuclear_max rho th x X) as N. pose proof (low_max x X) as L. unfold blend. destruct (Rle_dec x 10) as [A|A]; [lra|]. specialize (IN ltac:(lra)). pose proof (full_max x IN ltac:(lra)) as F. destruct (Rlt_dec x 30) as [B|B]; [|lra].
  assert ((1 - 1 / 20 * (x - 10)) * low x <= (1 - 1 / 20 * (x - 10)) * 1721) by (apply Rmult_le_compat_l; lra). assert (1 / 20 * (x - 10) * full c x <= 1 / 20 * (x - 10) * 400) by (apply Rmult_le_compat_l; lra). lra.
Qed.
End Settings.

(** every chord of the range table has a slope of at least 1/2000 g/cm2 per MeV *)
Lemma proton_steep rho th c rt : usual c -> range_table proton (gas rho th) c = Ok rt -> at_least (1 / 2000) rt.
Proof.
  intros US RT. pose proof US as [HZ HL]. assert (HL' := HL). apply Z.eqb_neq in HL'. split; [lra|]. intros i IL. pose proof (energy_incr i ltac:(lia)) as EI. pose proof (energy_le (S i) 599 ltac:(lia) ltac:(lia)) as EL. pose proof (energy_pos i ltac:(lia)) as EP. pose proof (energy_le 0 i ltac:(lia) ltac:(lia)) as EZ.
  pose proof (scaled_nth _ _ _ RT) as (_ & _ & ND). destruct (ND i ltac:(lia)) as (r & E & NE). destruct C26_library as [IN LIB]. rewrite LIB in E. change (pA proton) with 1 in NE. rewrite Rmult_1_l in NE.
  destruct (C26_exact 8 GL8_x GL8_w (fun _ => 1 / 1900) (fun x => 1 / 1900 * x) (energy i) (energy (S i)) [1 / 1900] IN (Rlt_le _ _ EI) ltac:(cbn [length]; lia)) as (J & EJ & BJ).
  - intros t. cbn. ring.
  - intros x _. set (k := 1 / 1900). replace (derivable_pt_lim (fun x => k * x) x k) with (derivable_pt_lim (mult_real_fct k id) x (k * 1)) by (rewrite Rmult_1_r; reflexivity). apply derivable_pt_lim_scal, derivable_pt_lim_id.
  - assert (JR : J <= r).
    { refine (C26_monotone _ _ _ _ _ _ _ IN (Rlt_le _ _ EI) _ EJ E). intros x u v X Q V. injection Q as <-. unfold fdedx in V. change (at_T proton x) with (proton_at x) in V. apply bind_ok in V. destruct V as (d & D & V). apply ok_inj in V. rewrite <- V. numR.
      pose proof (stop_max c HZ HL' rho th x d ltac:(lra) ltac:(lra) D) as D1. assert (D0 : 0 < d) by (destruct (C65_proton_slow rho th c US) as [P _]; apply (P x d ltac:(lra)); exact D). replace (Rlit 1.0) with 1 by (dec_norm; lra). apply (Rmult_le_reg_r d); [exact D0|]. replace (1 / d * d) with 1 by (field; lra). lra. }
    assert (SZ : size [1 / 1900] <= 1) by (unfold size; cbn [fold_right map]; rewrite Rabs_pos_eq by lra; lra). apply abs_in in BJ.
    assert (P20 : / 10 ^ 20 * size [1 / 1900] <= / 1000000). { apply Rle_trans with (/ 10 ^ 20 * 1); [apply Rmult_le_compat_l; [left; apply Rinv_0_lt_compat, pow_lt; lra|exact SZ]|]. rewrite Rmult_1_r. apply Rinv_le_contravar; [lra|]. replace 20%nat with (6 + 14)%nat by lia. rewrite pow_add. pose proof (pow_R1_Rle 10 14 ltac:(lra)). lra. }
    set (z := / 10 ^ 20 * size [1 / 1900]) in *. clearbody z. assert ((energy (S i) - energy i) / 2 * z <= (energy (S i) - energy i) / 2 * / 1000000) by (apply Rmult_le_compat_l; lra).
    unfold chord_slope. fold (energy (S i)) (energy i). replace (nth (S i) rt 0 - nth i rt 0) with r by (rewrite <- NE; ring). apply (Rmult_le_reg_r (energy (S i) - energy i)); [lra|]. replace (r / (energy (S i) - energy i) * (energy (S i) - energy i)) with r by (field; lra). lra.
Qed.

(** after any calls: the energy of a proton behind a layer of nitrogen of any thickness is within 140 keV of every energy of which the remaining range is exact; two calculations, in one piece or in n layers, differ by at most (n+1) times that *)
Theorem C65_proton_accuracy junk h w rho th c T e w1 rT w2 x rx w3 : small_junk junk -> usual c -> exec_all junk h world0 = Ok w ->
  energy_out junk (proton_at T) (gas rho th) c w = Ok (e, w1) -> e <> 0 -> e <> -1 -> range junk (proton_at T) (gas rho th) c w1 = Ok (rT, w2) -> range junk (proton_at x) (gas rho th) c w2 = Ok (rx, w3) -> rx = rT - th ->
  Rabs (e - x) <= 14 / 100.
Proof.
  intros SJ US EH H E0 E1 HT HX RX. destruct (proton_table rho th c US) as (rt & RT & G). assert (EP : 0 < numeric_epsilon <= 1 / 1000000) by (rewrite eps_R; lra).
  pose proof (C65_accuracy junk SJ h w (proton_at T) (gas rho th) c rt (1 / 2000) e w1 rT w2 x rx w3 EH (legit_at proton T proton_legit) (gas_legit _ _) RT G (proton_steep rho th c rt US RT) H E0 E1 HT HX RX) as A.
  apply Rle_trans with (1 := A). lra.
Qed.
Print Assumptions C65_proton_accuracy.
Theorem C65_proton_split junk h w rho th c T ths e w' e1 w'' : small_junk junk -> usual c -> exec_all junk h world0 = Ok w ->
  passes_api junk proton (gas rho th) c w T ths e w' -> ths <> [] -> passes_api junk proton (gas rho th) c w' T [total ths] e1 w'' -> Rabs (e - e1) <= 14 / 100 * (INR (length ths) + 1).
Proof.
  intros SJ US EH P NE P1. destruct (proton_table rho th c US) as (rt & RT & G). assert (EP : 0 < numeric_epsilon <= 1 / 1000000) by (rewrite eps_R; lra).
  pose proof (C65_split junk SJ h w proton (gas rho th) c rt (1 / 2000) T ths e w' e1 w'' EH proton_legit (gas_legit _ _) RT G (proton_steep rho th c rt US RT) P NE P1) as A. pose proof (pos_INR (length ths)) as LP. set (n := INR (length ths)) in *. clearbody n.
  apply Rle_trans with (1 := A). replace ((n + 1) * (1 / 100000) / (149 / 1000 * (1 / 2000))) with ((n + 1) * (20 / 149)) by field. lra.
Qed.
Print Assumptions C65_proton_split.

(** a proton of 2250 MeV behind 1 mg/cm2: there is an energy of which the remaining range is exact, and the two agree *)
Example C65_proton_accuracy_case : exists e w1 rT x rx, energy_out junk0 (proton_at 2250) (gas (1 / 800) (1 / 1000)) conf world0 = Ok (e, w1) /\ range junk0 (proton_at 2250) (gas (1 / 800) (1 / 1000)) conf w1 = Ok (rT, w1) /\
  range junk0 (proton_at x) (gas (1 / 800) (1 / 1000)) conf w1 = Ok (rx, w1) /\ rx = rT - 1 / 1000 /\ 2249 <= x <= 2250 /\ Rabs (e - x) <= 14 / 100.
Proof.
  assert (SJ : small_junk junk0) by (intros k; cbn [junk0 fst snd]; rewrite Rabs_R0; lra). set (g := gas (1 / 800) (1 / 1000)).
  destruct (C65_proton_thin junk0 [] world0 (1 / 800) (1 / 1000) conf 2250 usual_default SJ eq_refl world_ok0 ltac:(lra) ltac:(lra)) as (e & w1 & de & H & _ & EE & DE). fold g in H.
  pose proof H as H'. unfold energy_out in H'. apply bind_ok in H'. destruct H' as ([d w2] & L & H'). apply bind_ok in H'. destruct H' as (q & _ & Q). apply ok_inj in Q. apply pair_equal_spec in Q. destruct Q as [_ ->].
  assert (LR : forall T, lookup junk0 (proton_at T) g conf w1 = Ok (d, w1)) by (intros T; exact (laterE junk0 (proton_at 2250) g conf world0 d w1 (exec_all_wf junk0 [] world0 eq_refl) L T)).
  destruct (lookup_made junk0 [] world0 (proton_at 2250) g conf d w1 eq_refl (legit_at proton 2250 proton_legit) (gas_legit _ _) L) as (RT & k & s & MS & SP). change (range_table (proton_at 2250)) with (range_table proton) in RT.
  destruct (proton_table (1 / 800) (1 / 1000) conf usual_default) as (rt & RT2 & G). fold g in RT2. assert (rt = dp_range d) by congruence. subst rt. destruct energy_380 as (N1 & N2). assert (EP : 0 < numeric_epsilon <= 1 / 1000000) by (rewrite eps_R; lra).
  pose proof (range_380 conf usual_default (1 / 800) (1 / 1000) (dp_range d) RT) as RI. destruct (SJ k) as [J0 J1].
  assert (CELL : forall y, 2249 <= y <= 2250 -> spline_eval s y = Ok (piece 600 (-3) 7 s 380 y)) by (intros y Y; apply (in_cell (dp_range d) (junk0 k) s MS 380 y ltac:(lia)); lra).
  set (f := piece 600 (-3) 7 s 380) in *.
  assert (SG : nth 381 (dp_range d) 0 - nth 380 (dp_range d) 0 = chord_slope energy_table (dp_range d) 380 * (energy 381 - energy 380)) by (unfold chord_slope; fold (energy 381) (energy 380); field; lra).
  assert (SL : 5 / 10 <= chord_slope energy_table (dp_range d) 380) by (apply (Rmult_le_reg_r (energy 381 - energy 380)); [lra|]; rewrite <- SG; lra).
  assert (DROP : f 2249 < f 2250 - 1 / 1000).
  { destruct (MVT_cor2 f (slope 600 (-3) 7 s 380) 2249 2250 ltac:(lra)) as (y & E & Y); [intros y Y; apply piece_deriv|]. destruct (cell_slope (dp_range d) (junk0 k) s J0 J1 MS G 380 y ltac:(lia) ltac:(lra)) as [_ SB]. lra. }
  assert (CONT : continuity (fun y => f y - (f 2250 - 1 / 1000))).
  { intros y. apply derivable_continuous_pt. exists (slope 600 (-3) 7 s 380 y - 0). apply derivable_pt_lim_minus; [apply piece_deriv|apply derivable_pt_lim_const]. }
  destruct (IVT (fun y => f y - (f 2250 - 1 / 1000)) 2249 2250 CONT ltac:(lra) ltac:(lra) ltac:(lra)) as (x & X & FX).
  exists e, w1, (f 2250), x, (f x). assert (HR : forall y, 2249 <= y <= 2250 -> range junk0 (proton_at y) g conf w1 = Ok (f y, w1)).
  { intros y Y. unfold range. rewrite LR. cbn [bind]. rewrite SP. cbn [interp_eval proton_at pT]. rewrite CELL by exact Y. reflexivity. }
  split; [exact H|]. split; [apply HR; lra|]. split; [apply HR; exact X|]. split; [lra|]. split; [exact X|].
  apply (C65_proton_accuracy junk0 [] world0 (1 / 800) (1 / 1000) conf 2250 e w1 (f 2250) w1 x (f x) w1 SJ usual_default eq_refl H); [lra|lra|apply HR; lra|apply HR; exact X|lra].
Qed.
(** two layers of 1 mg/cm2 and one of 2 mg/cm2 *)
Example C65_proton_split_case : exists e w' e1 w'', passes_api junk0 proton (gas (1 / 800) 1) conf world0 2250 [1 / 1000; 1 / 1000] e w' /\ passes_api junk0 proton (gas (1 / 800) 1) conf w' 2250 [total [1 / 1000; 1 / 1000]] e1 w'' /\ Rabs (e - e1) <= 42 / 100.
Proof.
  assert (SJ : small_junk junk0) by (intros k; cbn [junk0 fst snd]; rewrite Rabs_R0; lra).
  assert (STEP : forall h w T th, exec_all junk0 h world0 = Ok w -> world_ok w -> 2240 <= T <= 2290 -> 0 <= th <= 3 / 1000 -> exists e w1, energy_out junk0 (at_T proton T) (set_thickness (gas (1 / 800) 1) th) conf w = Ok (e, w1) /\ T - 1 / 10 <= e <= T /\ world_ok w1 /\ exists h', exec_all junk0 h' world0 = Ok w1).
  { intros h w T th EH OW TT TH. destruct (C65_proton_thin junk0 h w (1 / 800) th conf T usual_default SJ EH OW ltac:(lra) TH) as (e & w1 & d & H & _ & E & D). exists e, w1. change (at_T proton T) with (proton_at T). change (set_thickness (gas (1 / 800) 1) th) with (gas (1 / 800) th). split; [exact H|].
    split; [rewrite E; split; nra|]. split; [destruct (energy_out_good junk0 (proton_at T) (gas (1 / 800) th) conf w (legit_at proton T proton_legit) (gas_legit _ _) OW) as (a & w' & Q & O & _); assert (w' = w1) by congruence; subst; exact O|].
    exists (h ++ [CEnergyOut (proton_at T) (gas (1 / 800) th) conf]). eapply exec_all_snoc; [exact EH|]. unfold exec, one. rewrite H. reflexivity. }
  destruct (STEP [] world0 2250 (1 / 1000) eq_refl world_ok0 ltac:(lra) ltac:(lra)) as (e1 & w1 & H1 & B1 & O1 & h1 & X1). destruct (STEP h1 w1 e1 (1 / 1000) X1 O1 ltac:(lra) ltac:(lra)) as (e2 & w2 & H2 & B2 & O2 & h2 & X2).
  assert (TT : total [1 / 1000; 1 / 1000] = 2 / 1000) by (unfold total; cbn [fold_right]; lra). destruct (STEP h2 w2 2250 (2 / 1000) X2 O2 ltac:(lra) ltac:(lra)) as (e3 & w3 & H3 & B3 & O3 & _).
  assert (P1 : passes_api junk0 proton (gas (1 / 800) 1) conf world0 2250 [1 / 1000; 1 / 1000] e2 w2) by (econstructor; [exact H1|lra|lra|]; econstructor; [exact H2|lra|lra|]; constructor).
  assert (P2 : passes_api junk0 proton (gas (1 / 800) 1) conf w2 2250 [total [1 / 1000; 1 / 1000]] e3 w3) by (rewrite TT; econstructor; [exact H3|lra|lra|]; constructor).
  exists e2, w2, e3, w3. split; [exact P1|]. split; [exact P2|]. pose proof (C65_proton_split junk0 [] world0 (1 / 800) 1 conf 2250 _ e2 w2 e3 w3 SJ usual_default eq_refl P1 ltac:(discriminate) P2) as Q. cbn [length INR] in Q. lra.
Qed.
