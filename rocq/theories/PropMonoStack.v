(** * C65, protons through stacks of nitrogen: nothing is undefined *)
From Coq Require Import ZArith QArith Reals Qreals List Bool Lra Lia.
From Verif Require Import Num NumR Structures DataQuadrature EnergyTable Spline Integrator Calculations Storage Catima Cases SpecData CacheProofs CacheFresh History KeyEq ApiCache GridProofs QuadProofs BoundsProofs TotalProofs ApiTotal LayerProofs EnergyOutProofs
  PropGrid PropSpline PropQuad PropTables PropMaterial PropKin PropDedx PropCache PropEnergyOut PropLayers PropTof PropResult PropApi
  ProtonStopping PropMono PropMonoApi PropMonoProton PropMonoOut PropMonoProtonOut.
Import ListNotations.
Local Open Scope R_scope.

Section Stack.
Variable junk : nat -> R * R.
Hypothesis SJ : small_junk junk.
Variable c : Config R.
Hypothesis US : usual c.

(** up to 2293 MeV a layer does not raise the energy above 2208 MeV or the energy in front of it by more than 500 eV *)
Lemma layer_bound h w rho th T e w' : exec_all junk h world0 = Ok w -> 0 <= th -> T <= 2293 ->
  energy_out junk (proton_at T) (gas rho th) c w = Ok (e, w') -> e <= Rmax T 2208 + 1 / 2000.
Proof.
  intros EH TH TT H. apply Rnot_lt_le. intros C. set (a := Rmax T 2208) in *. assert (A : T <= a /\ 2208 <= a <= 2293) by (unfold a; pose proof (Rmax_l T 2208); pose proof (Rmax_r T 2208); split; [assumption|split; [assumption|apply Rmax_lub; lra]]). clearbody a.
  destruct energy_380 as (N1 & N2). assert (EP : 0 < numeric_epsilon <= 1 / 1000000) by (rewrite eps_R; lra). destruct (proton_table rho th c US) as (rt & RT & G). pose proof (range_380 c US rho th rt RT) as RI.
  unfold energy_out in H. apply bind_ok in H. destruct H as ([d w1] & L & H). apply bind_ok in H. destruct H as (x & H & Q). apply ok_inj in Q. apply pair_equal_spec in Q. destruct Q as [-> ->]. cbn [proton_at pT gas m_th] in H.
  unfold energy_out_sp in H. apply C08_class in H. destruct H as (rT & RT0 & [[_ Q]|[_ [Q|[Q|(re & RE & B)]]]]); [lra|lra|lra|].
  pose proof (range_far junk SJ h w EH (proton_at T) (gas rho th) c (legit_at proton T proton_legit) rt RT G d w') as RF.
  set (a' := a + 1 / 8000) in *. set (z := a + 3 / 8000) in *.
  destruct (RF T a' L ltac:(unfold a'; lra)) as (u1 & u2 & U1 & U2 & U3). destruct (RF z e L ltac:(unfold z; lra)) as (u3 & u4 & U4 & U5 & U6).
  assert (u1 = rT) by congruence. assert (u4 = re) by congruence. subst u1 u4.
  destruct (lookup_made junk h w (proton_at T) (gas rho th) c d w' EH (legit_at proton T proton_legit) (gas_legit _ _) L) as (RT' & k & s & MS & SP). change (range_table (proton_at T)) with (range_table proton) in RT'. assert (rt = dp_range d) by congruence. subst rt. clear RT'.
  rewrite SP in *. cbn [interp_eval] in *. destruct (SJ k) as [J0 J1].
  destruct (in_cell (dp_range d) (junk k) s MS 380 a' ltac:(lia) ltac:(unfold a'; lra)) as [V1 _]. destruct (in_cell (dp_range d) (junk k) s MS 380 z ltac:(lia) ltac:(unfold z; lra)) as [V2 _].
  destruct (MVT_cor2 (piece 600 (-3) 7 s 380) (slope 600 (-3) 7 s 380) a' z ltac:(unfold a', z; lra)) as (y & E & Y); [intros y Y; apply piece_deriv|].
  destruct (cell_slope (dp_range d) (junk k) s J0 J1 MS G 380 y ltac:(lia) ltac:(unfold a', z in Y; lra)) as [_ SB].
  assert (SG : nth 381 (dp_range d) 0 - nth 380 (dp_range d) 0 = chord_slope energy_table (dp_range d) 380 * (energy 381 - energy 380)) by (unfold chord_slope; fold (energy 381) (energy 380); field; lra).
  assert (SL : 5 / 10 <= chord_slope energy_table (dp_range d) 380) by (apply (Rmult_le_reg_r (energy 381 - energy 380)); [lra|]; rewrite <- SG; lra).
  assert (u2 = piece 600 (-3) 7 s 380 a') by congruence. assert (u3 = piece 600 (-3) 7 s 380 z) by congruence. subst u2 u3.
  assert (75 / 1000 * (2 / 8000) <= slope 600 (-3) 7 s 380 y * (z - a')) by (apply Rmult_le_compat; unfold a', z; lra). apply Rabs_def2 in B. lra.
Qed.

Definition layer (l : R * R) : Material R := gas (fst l) (snd l).
(** the energies in a stack: one layer of zero thickness and energies below the threshold included *)
Lemma result_bound h w rho th T r w' : exec_all junk h world0 = Ok w -> 0 <= th -> T <= 2293 ->
  calculate junk (proton_at T) (gas rho th) c w = Ok (r, w') -> r_Eout r <= Rmax T 2208 + 1 / 2000.
Proof.
  intros EH TH TT H. pose proof (Rmax_l T 2208) as M1. pose proof (Rmax_r T 2208) as M2. destruct (calculate_inv junk _ _ _ _ _ _ H) as [(_ & -> & _)|(TL & d & w1 & rg & dr & sv & L & _ & _ & _ & [(_ & _ & ->)|(TZ & Eo & ? & ? & ? & ? & ? & ? & ? & ? & ? & ? & EO & _ & _ & _ & _ & ->)])].
  - cbn [Result0 r_Eout]. replace (lit 0.0 : R) with 0 by (numR; dec_norm; lra). lra.
  - cbn [r_Eout proton_at pT]. lra.
  - cbn [r_Eout]. apply (layer_bound h w rho th T Eo w1 EH TH TT). unfold energy_out. rewrite L. cbn [bind]. rewrite EO. reflexivity.
Qed.

Lemma stack_below : forall ls h w T, exec_all junk h world0 = Ok w -> world_ok w -> Forall (fun l => 0 <= snd l) ls -> T <= 2293 -> Rmax T 2208 + INR (length ls) * (1 / 2000) <= 2293 ->
  forall p, pA p = 1 -> pZ p = 1 -> pQ p = 1 -> stays_below junk p c (map layer ls) T w.
Proof.
  induction ls as [|[rho th] ls IH]; intros h w T EH OW TP TT TM p PA PZ PQ; [exact I|]. assert (PP : forall x, at_T p x = proton_at x) by (intros x; destruct p; cbn in *; subst; reflexivity).
  cbn [map stays_below]. rewrite !PP. change (layer (rho, th)) with (gas rho th). inversion TP as [|? ? T0 T1]; subst. cbn [snd] in T0. change (length ((rho, th) :: ls)) with (S (length ls)) in TM. rewrite S_INR in TM. pose proof (pos_INR (length ls)) as LP. pose proof (Rmax_l T 2208) as M1. pose proof (Rmax_r T 2208) as M2.
  split; [apply top_above; lra|]. split; [intros e w' H; apply top_above; pose proof (layer_bound h w rho th T e w' EH T0 TT H); lra|].
  intros r w' H. pose proof (result_bound h w rho th T r w' EH T0 TT H) as RB.
  destruct (calculate_good junk (proton_at T) (gas rho th) c w (legit_at proton T proton_legit) (gas_legit _ _) OW) as (r2 & w2 & H2 & OW2 & _).
  - apply top_above. cbn [proton_at pT]. lra.
  - intros e we HE. apply top_above. pose proof (layer_bound h w rho th T e we EH T0 TT HE). lra.
  - assert (w2 = w') by congruence. subst w2. apply (IH (h ++ [CCalculate (proton_at T) (gas rho th) c]) w'); try assumption.
    + eapply exec_all_snoc; [exact EH|]. unfold exec. rewrite H. reflexivity.
    + lra.
    + assert (Rmax (r_Eout r) 2208 <= Rmax T 2208 + 1 / 2000) by (apply Rmax_lub; lra). lra.
Qed.

(** after any calls: one layer of nitrogen of any thickness, protons of up to 2207 MeV *)
Theorem C65_proton_calculate h w rho th T : exec_all junk h world0 = Ok w -> world_ok w -> 0 <= th -> T <= 2207 ->
  exists r w', calculate junk (proton_at T) (gas rho th) c w = Ok (r, w') /\ r_Eout r <= 2209.
Proof.
  intros EH OW TH TT. destruct (calculate_good junk (proton_at T) (gas rho th) c w (legit_at proton T proton_legit) (gas_legit _ _) OW) as (r & w' & H & _).
  - apply top_above. cbn [proton_at pT]. lra.
  - intros e we HE. apply top_above. pose proof (layer_bound h w rho th T e we EH TH ltac:(lra) HE). pose proof (Rmax_lub T 2208 2208 ltac:(lra) ltac:(lra)). lra.
  - exists r, w'. split; [exact H|]. pose proof (result_bound h w rho th T r w' EH TH ltac:(lra) H). pose proof (Rmax_lub T 2208 2208 ltac:(lra) ltac:(lra)). lra.
Qed.

(** after any calls: a stack of at most 100000 layers of nitrogen, each of its own density and thickness *)
Theorem C65_proton_layers h w ps ls T : exec_all junk h world0 = Ok w -> world_ok w -> Forall (fun l => 0 <= snd l) ls -> INR (length ls) <= 100000 -> T <= 2207 ->
  exists m w', calculate_layers junk (proton_at T) ps (map (fun l => gas (fst l) (snd l)) ls) c w = Ok (m, w').
Proof.
  intros EH OW TP LN TT. change (fun l : R * R => gas (fst l) (snd l)) with layer. unfold calculate_layers.
  assert (SB : stays_below junk (proton_at T) c (map layer ls) T w).
  { apply (stack_below ls h w T EH OW TP); try reflexivity; [lra|]. pose proof (Rmax_lub T 2208 2208 ltac:(lra) ltac:(lra)). lra. }
  assert (LT : Forall legit_t (map layer ls)) by (apply Forall_forall; intros m Q; apply in_map_iff in Q; destruct Q as (l & <- & _); apply gas_legit).
  destruct (layers_good junk (proton_at T) c (map layer ls) (legit_at proton T proton_legit) LT T (total0 (proton_at T) ps) w OW SB) as ([[rs e] tot] & w' & Q & _).
  cbn [proton_at pT]. rewrite Q. cbn [bind]. eexists. eexists. reflexivity.
Qed.
End Stack.
Print Assumptions C65_proton_calculate.
Print Assumptions C65_proton_layers.

(** three layers, the second of no thickness, the third two metres thick *)
Example C65_proton_layers_case : exists m w', calculate_layers junk0 (proton_at 100) (mkPS 0 0 0) [gas (1 / 800) (1 / 1000); gas (1 / 800) 0; gas (1 / 10) 20] conf world0 = Ok (m, w').
Proof.
  assert (SJ : small_junk junk0) by (intros k; cbn [junk0 fst snd]; rewrite Rabs_R0; lra).
  apply (C65_proton_layers junk0 SJ conf usual_default [] world0 (mkPS 0 0 0) [(1 / 800, 1 / 1000); (1 / 800, 0); (1 / 10, 20)] 100 eq_refl world_ok0).
  - repeat constructor; cbn [snd]; lra.
  - cbn [length INR]. lra.
  - lra.
Qed.
