(** * C65, the straggling of protons in nitrogen: the table behind the energy straggling is gentle up to 2200 MeV *)
From Coq Require Import ZArith QArith Reals Qreals List Bool Lra Lia.
From Verif Require Import Num NumR Structures EnergyTable Spline Calculations Storage Catima Cases SpecData CacheProofs CacheFresh History KeyEq ApiCache GridProofs BoundsProofs TotalProofs ApiTotal LayerProofs EnergyOutProofs
  PropGrid PropSpline PropTables PropMaterial PropKin PropDedx PropCache PropEnergyOut PropLayers PropTof PropResult PropApi PropCorr PropStrag BetheProofs BetheBracket LnBounds PropLSTable Near
  ProtonStopping ProtonLindhard ProtonHigh ProtonBethe PropMono PropMonoApi PropMonoProton ProtonStrag ProtonOmega.
Import ListNotations.
Local Open Scope R_scope.

(** four energies of the table *)
Lemma energy_exp i : (i < 600)%nat -> energy i = exp (LN10_ (F:=R) * (-3 + INR i * (10 / 599))).
Proof. intros H. rewrite energy_G by exact H. unfold gval, gstep. f_equal. f_equal. f_equal. f_equal. rewrite !INR_IZR_INZ. field. Qed.
Lemma node_energies : 2200 <= energy 380 /\ energy 381 <= 2300 /\ 49700 >= energy 461 /\ 10000 <= energy 460 /\ energy 599 <= 10010000.
Proof.
  rewrite !energy_exp by lia. rewrite !INR_IZR_INZ. cbn [Z.of_nat Pos.of_succ_nat Pos.succ].
  assert (L : 23025850 / 10000000 <= LN10_ (F:=R) <= 23025852 / 10000000) by (unfold LN10_; numR; dec_norm; lra). set (l := LN10_ (F:=R)) in *. clearbody l.
  pose proof (ln_between 2200 1 7696212 7696213 ltac:(vm_compute; reflexivity)) as L1. pose proof (ln_between 2300 1 7740664 7740665 ltac:(vm_compute; reflexivity)) as L2. pose proof (ln_between 49700 1 10813760 10813761 ltac:(vm_compute; reflexivity)) as L3.
  pose proof (ln_between 10000 1 9210340 9210341 ltac:(vm_compute; reflexivity)) as L4. pose proof (ln_between 10010000 1 16119095 16119096 ltac:(vm_compute; reflexivity)) as L5. 
  assert (UP : forall a b y, 0 < a -> y <= b -> b <= ln a -> exp y <= a) by (intros a b y A Y B; rewrite <- (exp_ln a) by exact A; apply exp_mono; lra).
  assert (DN : forall a b y, 0 < a -> b <= y -> ln a <= b -> a <= exp y) by (intros a b y A Y B; rewrite <- (exp_ln a) by exact A; apply exp_mono; lra).
  clear UP DN. assert (EM : forall a y, 0 < a -> (y <= ln a -> exp y <= a) /\ (ln a <= y -> a <= exp y)) by (intros a y A; split; intros H; rewrite <- (exp_ln a) by exact A; apply exp_mono; exact H).
  replace (2200 / 1) with 2200 in L1 by field. replace (2300 / 1) with 2300 in L2 by field. replace (49700 / 1) with 49700 in L3 by field. replace (10000 / 1) with 10000 in L4 by field. replace (10010000 / 1) with 10010000 in L5 by field.
  repeat split; [apply EM|apply EM|apply Rle_ge, EM|apply EM|apply EM]; lra.
Qed.

Section Settings.
Variable c : Config R.
Hypothesis US : usual c.
Variables rho th : R.
(** the integrand, where it is defined *)
Lemma fomega_value T u : 0 < T -> T < energy 599 -> fomega proton (gas rho th) c T = Ok u ->
  u = integrand c rho th T /\ 0 < stop c rho th T /\ (10 < T -> inside c T) /\ (1 <= T -> T < ls_glast - numeric_epsilon).
Proof.
  intros T0 TE H. destruct US as [HZ HL]. apply Z.eqb_neq in HL. assert (EN : energy 599 = exp (LN10_ (F:=R) * 7)) by (rewrite energy_exp by lia; f_equal; rewrite INR_IZR_INZ; cbn [Z.of_nat Pos.of_succ_nat Pos.succ]; field).
  unfold fomega in H. change (at_T proton T) with (proton_at T) in H. apply bind_ok in H. destruct H as (o & O & H). apply bind_ok in H. destruct H as (d & D & H). apply ok_inj in H.
  assert (IN : 10 < T -> inside c T) by (intros Q; apply (value_inside c rho th T d); [lra|rewrite <- EN; exact TE|exact D]).
  assert (GL : 1 <= T -> T < ls_glast - numeric_epsilon).
  { intros T1. apply Rnot_le_lt. intros Q. destruct (C38_table_end_refuted (proton_at T) (gas rho th) c) as [_ C].
    - cbn [proton_at pZ]. lra.
    - discriminate.
    - intros t [<-|[]]. cbn [nitrogen tZ]. lia.
    - unfold just_below_table_end. cbv zeta. cbn [proton_at pT]. unfold ls_glast in Q. rewrite glast_val in Q by (lia || lra). split; [exact Q|rewrite <- EN; exact TE].
    - rewrite O in C. discriminate. }
  rewrite (dedx_value c HZ HL rho th T T0 IN) in D. apply ok_inj in D. fold (stop c rho th T) in D.
  assert (SP : 0 < stop c rho th T).
  { rewrite D. destruct (C65_proton_slow rho th c US) as [P _]. destruct (Rlt_le_dec (energy 0) T) as [Q|Q]; [apply (P T d); [lra|]; change (at_T proton T) with (proton_at T); rewrite (dedx_value c HZ HL rho th T T0 IN); f_equal; exact D|].
    rewrite <- D. destruct (stop_below c T T T0 ltac:(lra) ltac:(lra) rho th) as [P0 _]; [|exact P0]. pose proof (energy_pos 0 ltac:(lia)). rewrite energy_exp in Q by lia. cbn [INR] in Q.
    assert (exp (LN10_ (F:=R) * (-3 + 0 * (10 / 599))) <= 3 / 10); [|lra]. rewrite <- (Rinv_inv (3 / 10)). assert (L : 23 / 10 <= LN10_ (F:=R)) by (unfold LN10_; numR; dec_norm; lra).
    replace (LN10_ (F:=R) * (-3 + 0 * (10 / 599))) with (- (3 * LN10_ (F:=R))) by ring. rewrite exp_Ropp. apply Rinv_le_contravar; [lra|]. pose proof (exp_ineq1_le (3 * LN10_ (F:=R))). lra. }
  split; [|split; [exact SP|split; [exact IN|exact GL]]].
  assert (XO : precalculated_lindhard_X (F:=R) (proton_at T) = Ok (xfac T)) by (destruct (Rlt_le_dec T 1) as [Q|Q]; [apply xfac_one; exact Q|destruct (xfac_at T (conj Q (GL Q))) as (_ & _ & _ & _ & _ & _ & E & _); exact E]).
  rewrite (omega_value c rho th T T0 XO) in O. apply ok_inj in O. rewrite <- H, <- O, <- D. unfold integrand, power. numR. rewrite <- (Rpower_pow 3 (stop c rho th T)) by exact SP. unfold Rpower. unfold Rdiv. f_equal. f_equal. f_equal. cbn [INR]. dec_norm. ring.
Qed.
Lemma fomega_slow : slow_upto 461 (fomega proton (gas rho th) c).
Proof.
  pose proof (energy_pos 0 ltac:(lia)) as E0. destruct node_energies as (_ & _ & EN & _). pose proof (energy_le 461 599 ltac:(lia) ltac:(lia)) as EL. destruct US as [HZ _]. split.
  - intros x u X U. destruct (fomega_value x u ltac:(lra) ltac:(lra) U) as (-> & _ & IN & _). destruct (integrand_step c HZ rho th x x ltac:(lra) ltac:(lra) ltac:(lra) ltac:(lra) IN) as (P & _). exact P.
  - intros x z u v X XZ ZX ZE U V. destruct (fomega_value x u ltac:(lra) ltac:(lra) U) as (-> & _). destruct (fomega_value z v ltac:(lra) ltac:(lra) V) as (-> & _ & IN & _).
    destruct (integrand_step c HZ rho th x z ltac:(lra) ltac:(lra) ltac:(lra) ltac:(lra) IN) as (_ & _ & P1 & P2). lra.
Qed.
(** above: an upper bound *)
Lemma fomega_upper x u : energy 460 < x < energy 599 -> fomega proton (gas rho th) c x = Ok u -> 0 <= u <= f0 * 226000000.
Proof.
  intros X U. destruct node_energies as (_ & _ & _ & N1 & N2). destruct (fomega_value x u ltac:(lra) ltac:(lra) U) as (-> & SP & IN & GL). specialize (IN ltac:(lra)). specialize (GL ltac:(lra)). destruct US as [HZ HL].
  pose proof (xfac_range x ltac:(lra)) as XR. destruct (cor_range c x ltac:(lra)) as [CR _]. pose proof (charge_range c HZ x ltac:(lra)) as C. pose proof f0_range as F.
  assert (S8 : 8 / 10 <= stop c rho th x).
  { destruct (high_near c HZ x x ltac:(lra) ltac:(lra) ltac:(lra) IN) as (_ & H8 & _). destruct (nuclear_close rho th x x ltac:(lra) ltac:(lra) ltac:(lra)) as (NP & _). unfold stop, blend. destruct (Rle_dec x 10); [lra|]. destruct (Rlt_dec x 30); [lra|].
    pose proof (C41_pair_production (proton_at x) nitrogen) as P0. fold (pair x) in P0. pose proof (C41_bremsstrahlung (proton_at x) nitrogen ltac:(cbn [proton_at pA]; lra) ltac:(cbn [nitrogen tA]; lra) ltac:(cbn [proton_at pT]; lra)) as P1. fold (brems x) in P1.
    unfold full. destruct (Rltb 50000 x && negb (corr_has c no_highenergy)); lra. }
  unfold integrand. rewrite omega_first by (exact HZ || lra). unfold first. pose proof (eta2_upper x 10010000 ltac:(lra) ltac:(lra)) as EU. assert (E1 : 1 + eta2 x <= 115510000) by (unfold u0 in EU; lra). pose proof (eta2_pos x ltac:(lra)) as E0.
  assert (C2 : 0 <= charge c x * charge c x <= 1) by (split; nra). set (q := charge c x * charge c x) in *. set (a := xfac x) in *. set (e := 1 + eta2 x) in *. assert (E2 : 1 <= e) by (unfold e; lra). set (r := cor c x) in *. set (s := stop c rho th x) in *. clearbody q a e r s. clear E0 EU C U IN GL.
  assert (B : 0 <= a * e + r <= 115626000).
  { split; [assert (0 <= a * e) by (apply Rmult_le_pos; lra); lra|]. assert (a * e <= 1001 / 1000 * 115510000) by (apply Rmult_le_compat; lra). lra. }
  set (b := a * e + r) in *. clearbody b. assert (B2 : 0 <= q * b <= 115626000) by (split; [apply Rmult_le_pos; lra|]; replace 115626000 with (1 * 115626000) by ring; apply Rmult_le_compat; lra). set (y := q * b) in *. clearbody y.
  assert (S3 : 512 / 1000 <= s ^ 3) by (replace (512 / 1000) with ((8 / 10) ^ 3) by lra; apply pow_incr; lra). set (w := s ^ 3) in *. clearbody w. split; [apply Rmult_le_pos; [apply Rmult_le_pos; lra|left; apply Rinv_0_lt_compat; lra]|].
  apply (Rmult_le_reg_r w); [lra|]. replace (f0 * y / w * w) with (f0 * y) by (field; lra). rewrite Rmult_assoc. apply Rmult_le_compat_l; lra.
Qed.
(** a lower bound near 2200 MeV *)
Lemma fomega_lower x u : energy 380 < x < energy 381 -> fomega proton (gas rho th) c x = Ok u -> f0 * (79 / 100) <= u.
Proof.
  intros X U. destruct node_energies as (N1 & N2 & _). pose proof (energy_le 381 599 ltac:(lia) ltac:(lia)) as EL. destruct (fomega_value x u ltac:(lra) ltac:(lra) U) as (-> & SP & IN & _). specialize (IN ltac:(lra)). destruct US as [HZ HL].
  destruct (xfac_mid x ltac:(lra)) as [_ XR]. destruct (cor_range c x ltac:(lra)) as [CR _]. pose proof (charge_range c HZ x ltac:(lra)) as C. pose proof f0_range as F.
  assert (E1 : 1128 / 100 <= 1 + eta2 x).
  { unfold eta2. assert (236 / 100 <= x / u0) by (apply (Rmult_le_reg_r u0); [apply u0_pos|]; unfold Rdiv; rewrite !Rmult_assoc, Rinv_l by (pose proof u0_pos; lra); unfold u0; lra). set (t := x / u0) in *. clearbody t. nra. }
  pose proof (eta2_upper x 2300 ltac:(lra) ltac:(lra)) as EU. assert (E2 : eta2 x <= 11036 / 1000) by (unfold u0 in EU; lra). destruct (stop_high c HZ rho th x ltac:(lra) IN ltac:(lra)) as (n & SH & NB). destruct (bracket_mid c HZ x IN ltac:(lra)) as (EB & _ & BK & LB).
  destruct (raw_facts c x ltac:(lra)) as [[_ R1] R0]. assert (BU : bare_log (eta2 x) <= 110 / 10).
  { unfold bare_log. pose proof (ln_between 137600 1 11832000 11833000 ltac:(vm_compute; reflexivity)) as L. replace (137600 / 1) with 137600 in L by field. pose proof (ln_le_mono (1021997856 / 82000 * eta2 x) 137600 ltac:(lra) ltac:(lra)).
    assert (9 / 10 <= eta2 x / (1 + eta2 x)) by (apply (Rmult_le_reg_r (1 + eta2 x)); [lra|]; replace (eta2 x / (1 + eta2 x) * (1 + eta2 x)) with (eta2 x) by (field; lra); lra). lra. }
  assert (BR : 0 < bracket c x <= 113 / 10) by (destruct (bracket_close c HZ x x ltac:(lra) ltac:(lra) ltac:(lra) IN ltac:(lra)) as (P & _); split; [exact P|]; rewrite EB; set (r := raw_log c x 82 7) in *; set (k := barkas c x) in *; clearbody r k; nra).
  assert (W : 0 < / eta2 x <= 973 / 10000) by (split; [apply Rinv_0_lt_compat; lra|]; apply Rle_trans with (/ (1028 / 100)); [apply Rinv_le_contravar; lra|lra]).
  assert (C2 : 994 / 1000 <= charge c x * charge c x <= 1) by (split; nra). unfold high in SH. rewrite dedx_constant_val in SH. unfold integrand. rewrite omega_first by (exact HZ || lra). unfold first.
  set (q := charge c x * charge c x) in *. set (a := xfac x) in *. set (e := 1 + eta2 x) in *. set (r := cor c x) in *. set (s := stop c rho th x) in *. set (v := / eta2 x) in *. set (b := bracket c x) in *. clearbody q a e r s v b. clear EU C U IN BU R1 R0 EB BK LB.
  assert (V : 0 < (1 + v) * b <= 10973 / 10000 * (113 / 10)) by (split; [apply Rmult_lt_0_compat; lra|apply Rmult_le_compat; lra]). set (p := (1 + v) * b) in *. clearbody p.
  assert (V2 : 0 < q * p <= 10973 / 10000 * (113 / 10)) by (split; [apply Rmult_lt_0_compat; lra|]; apply Rle_trans with (1 * p); [apply Rmult_le_compat_r; lra|lra]). set (g := q * p) in *. clearbody g.
  assert (SU : 0 < s <= 1906 / 1000) by (rewrite SH; split; [lra|]; apply Rle_trans with (19039 / 10000 * (1001 / 1000)); [apply Rmult_le_compat; lra|lra]). clear SH.
  assert (B : 5561 / 1000 <= a * e + r) by (assert (493 / 1000 * (1128 / 100) <= a * e) by (apply Rmult_le_compat; lra); lra). set (m := a * e + r) in *. clearbody m.
  assert (B2 : 552 / 100 <= q * m) by (apply Rle_trans with (994 / 1000 * (5561 / 1000)); [lra|apply Rmult_le_compat; lra]). set (y := q * m) in *. clearbody y.
  assert (S3 : 0 < s ^ 3 <= 693 / 100) by (split; [apply pow_lt; lra|]; apply Rle_trans with ((1906 / 1000) ^ 3); [apply pow_incr; lra|lra]). set (w := s ^ 3) in *. clearbody w.
  apply (Rmult_le_reg_r w); [lra|]. replace (f0 * y / w * w) with (f0 * y) by (field; lra). rewrite Rmult_assoc. apply Rmult_le_compat_l; lra.
Qed.
End Settings.

(** the straggling table of protons in nitrogen is gentle up to its entry at 2207 MeV, whatever the corrections and the kind of straggling *)
Theorem C65_proton_straggling rho th c st : usual c -> straggling_table proton (gas rho th) c = Ok st -> gentle_below energy_table st 380 80.
Proof.
  intros U ST. apply (C65_slow_density_below (pA proton) (fomega proton (gas rho th) c) st 380 80 (f0 * 226000000) (f0 * (79 / 100)) ST).
  - cbn. lra.
  - lia.
  - exact (fomega_slow c U rho th).
  - exact (fomega_upper c U rho th).
  - exact (fomega_lower c U rho th).
  - assert (P5 : 37 / 10 <= 1.3 ^ 5) by (cbn [pow]; lra).
    assert (Q : forall n a b, 0 <= a -> a <= 1.3 ^ n -> b <= a * a -> b <= 1.3 ^ (n + n)) by (intros n a b A H B; rewrite pow_add; apply Rle_trans with (a * a); [exact B|apply Rmult_le_compat; lra]).
    pose proof (Q 5%nat (37 / 10) (1369 / 100) ltac:(lra) P5 ltac:(lra)) as P10. pose proof (Q 10%nat (1369 / 100) 187 ltac:(lra) P10 ltac:(lra)) as P20. pose proof (Q 20%nat 187 34969 ltac:(lra) P20 ltac:(lra)) as P40. pose proof (Q 40%nat 34969 1222000000 ltac:(lra) P40 ltac:(lra)) as P80.
    change (40 + 40)%nat with 80%nat in P80. clear Q P5 P10 P20 P40. set (w := 1.3 ^ 80) in *. clearbody w. pose proof f0_range as F. set (f := f0) in *. clearbody f.
    apply Rle_trans with (f * (0.237 * w)); [apply Rmult_le_compat_l; lra|right; lra].
Qed.
Print Assumptions C65_proton_straggling.

(** after any calls: behind a layer of nitrogen the energy spread of protons that entered with at most 2200 MeV and lost energy is positive *)
Theorem C65_proton_sigma_E junk h w rho th c T r w' : usual c -> small_junk junk -> exec_all junk h world0 = Ok w -> th <> 0 -> 1 / 1000 <= T <= 2200 ->
  calculate junk (proton_at T) (gas rho th) c w = Ok (r, w') -> 1 / 1000 <= r_Eout r < T -> 0 < r_dEdxo r /\ 0 < r_sigma_E r.
Proof.
  intros U SJ EH TH HT H EB. destruct (proton_table rho th c U) as (rt & RT & G).
  destruct (straggling_table_ok proton (gas rho th) c (legit_key _ _ proton_legit (gas_legit rho th))) as (st & ST & _). pose proof (C65_proton_straggling rho th c st U ST) as SG. destruct node_energies as (N1 & _).
  exact (C65_sigma_E junk h w (proton_at T) (gas rho th) c rt st 380 80 r w' SJ EH (legit_at proton T proton_legit) RT G ST SG ltac:(cbn [proton_at pT]; lra) ltac:(cbn [proton_at pT]; lra) TH H EB).
Qed.
Print Assumptions C65_proton_sigma_E.

(** a proton of between 30 and 100 MeV leaves a layer *)
Example C65_proton_sigma_E_case : exists T th r w', 30 < T < 100 /\ 0 < th /\ calculate junk0 (proton_at T) (gas (1 / 800) th) conf world0 = Ok (r, w') /\ 30 < r_Eout r < T /\ 0 < r_sigma_E r.
Proof.
  assert (SJ : small_junk junk0) by (intros k; cbn [junk0 fst snd]; rewrite Rabs_R0; lra).
  destruct (lookup_total junk0 proton (gas (1 / 800) 1) conf world0 proton_legit (gas_legit _ _) world_ok0) as (d & w1 & L & OD & OW & _).
  destruct (lookup_made junk0 [] world0 proton (gas (1 / 800) 1) conf d w1 eq_refl proton_legit (gas_legit _ _) L) as (RT & k & s & MS & SP).
  destruct (proton_table (1 / 800) 1 conf usual_default) as (rt & RT' & G). rewrite RT in RT'. apply ok_inj in RT'. rewrite <- RT' in G. clear rt RT'.
  pose proof (scaled_nth _ _ _ RT) as (LEN & Z0 & _). assert (INC : forall i, (S i < 600)%nat -> nth i (dp_range d) 0 < nth (S i) (dp_range d) 0).
  { intros i I. destruct G as [G _]. specialize (G i I). unfold chord_slope in G. fold (energy (S i)) (energy i) in G. pose proof (energy_incr i I) as EI. set (a := nth (S i) (dp_range d) 0) in *. set (b := nth i (dp_range d) 0) in *. clearbody a b.
    assert (0 < (a - b) / (energy (S i) - energy i) * (energy (S i) - energy i)) by (apply Rmult_lt_0_compat; lra). replace ((a - b) / (energy (S i) - energy i) * (energy (S i) - energy i)) with (a - b) in * by (field; lra). lra. }
  assert (POS : forall i, (S i < 600)%nat -> 0 < nth (S i) (dp_range d) 0) by (induction i as [|i IH]; intros I; [specialize (INC 0%nat I); lra|specialize (IH ltac:(lia)); specialize (INC (S i) I); lra]).
  destruct (thin_moves (dp_range d) (junk0 k) s 280 LEN MS ltac:(lia) (POS 279%nat ltac:(lia)) (Rlt_not_eq _ _ (INC 280%nat ltac:(lia)))) as (T & th & TT & TP & EO).
  destruct energy_280 as [E1 E2]. destruct (EO th ltac:(lra)) as (e & EE & EB & _ & dr & DR & ED).
  destruct (range_deriv_pos junk0 SJ [] world0 eq_refl proton (gas (1 / 800) 1) conf proton_legit _ RT G d w1 T L) as (dr' & DR' & DP). rewrite SP in DR'. cbn [interp_deriv] in DR'. assert (dr' = dr) by congruence. subst dr'.
  assert (ET : e < T) by (rewrite ED; assert (0 < th / dr) by (apply Rdiv_lt_0_compat; assumption); lra). clear POS INC EO.
  assert (L' : exists d' w', lookup junk0 (proton_at T) (gas (1 / 800) th) conf world0 = Ok (d', w') /\ dp_range_spline d' = Some s).
  { pose proof (lookup_T junk0 world0 proton T th (gas (1 / 800) 1) conf wf_world0) as S. rewrite L in S. change (at_T proton T) with (proton_at T) in S. change (set_thickness (gas (1 / 800) 1) th) with (gas (1 / 800) th) in S.
    destruct (lookup junk0 (proton_at T) (gas (1 / 800) th) conf world0) as [[d' w']|]; [|contradiction]. exists d', w'. split; [reflexivity|]. cbn [osim fst] in S. destruct S as (_ & _ & _ & E & _). congruence. }
  destruct L' as (d' & w' & L' & ES).
  assert (BT : forall x, x < 100 -> below_top x) by (intros x X; apply top_above; lra).
  assert (EOUT : energy_out junk0 (proton_at T) (gas (1 / 800) th) conf world0 = Ok (e, w')) by (unfold energy_out; rewrite L'; cbn [bind proton_at gas pT m_th]; rewrite ES, EE; reflexivity).
  destruct (calculate_good junk0 (proton_at T) (gas (1 / 800) th) conf world0) as (r & w2 & H & _).
  - exact (legit_at proton T proton_legit).
  - apply gas_legit.
  - exact world_ok0.
  - apply BT. cbn [proton_at pT]. lra.
  - intros e' we HE. rewrite EOUT in HE. injection HE as <- _. apply BT. lra.
  - exists T, th, r, w2. split; [lra|]. split; [exact TP|]. split; [exact H|].
    assert (RE : r_Eout r = e).
    { destruct (C12_agrees junk0 _ _ _ _ _ _ H) as (wx & _ & _ & _ & HE); [apply not_true_is_false; rewrite too_low_R; cbn [proton_at pT]; lra|].
      assert (X : Ok (e, w') = Ok (r_Eout r, wx)) by (rewrite <- EOUT; apply HE; cbn [gas m_th]; rewrite lit0'; numR; apply Reqb_false; lra). congruence. }
    rewrite RE. split; [lra|]. apply (C65_proton_sigma_E junk0 [] world0 (1 / 800) th conf T r w2 usual_default SJ eq_refl ltac:(lra) ltac:(lra) H). rewrite RE. lra.
Qed.
