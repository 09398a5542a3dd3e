(** * C01: two scattering factors that the cache takes for one *)
From Coq Require Import ZArith Reals List Bool Lra Lia.
From Verif Require Import Num NumR Structures EnergyTable Spline Integrator Calculations NucData Reactions Storage Catima CacheProofs CacheFresh History KeyEq ApiCache SpecData DataProofs GridProofs
  BoundsProofs TotalProofs ApiTotal Cases EnergyOutProofs LayerProofs PropCache PropGrid PropSpline PropEnergyOut PropLayers PropSrim PropQuad PropTables PropApi PropStrag PropBethe PropRad PropScatter PropTof.
From Verif Require PropWinger.
Import ListNotations.
Local Open Scope R_scope.

(** ** The angular table is proportional to the factor *)
Lemma ok_eq {A} (a b : A) : Ok a = Ok b -> a = b.
Proof. congruence. Qed.

Lemma table_scaled (s1 s2 : R -> R -> outcome R) k g l : (forall x y v, s1 x y = Ok v -> s2 x y = Ok (k * v)) -> table (F:=R) s1 g = Ok l -> table (F:=R) s2 g = Ok (map (Rmult k) l).
Proof.
  intros H. assert (A : forall g lo prev l, accumulate (F:=R) s1 lo g prev = Ok l -> accumulate (F:=R) s2 lo g (k * prev) = Ok (map (Rmult k) l)).
  { clear g l. induction g as [|hi g IH]; intros lo prev l; cbn [accumulate]; [intros E; apply ok_eq in E; subst; reflexivity|].
    destruct (s1 lo hi) as [v|] eqn:E; [|discriminate]. rewrite (H _ _ _ E). cbn [bind]. cbv zeta. numR.
    destruct (accumulate s1 hi g (v + prev)) as [l'|] eqn:E'; [|discriminate]. cbn [bind]. intros X. apply ok_eq in X. subst l.
    replace (k * v + k * prev) with (k * (v + prev)) by ring. rewrite (IH _ _ _ E'). reflexivity. }
  unfold table. destruct g as [|g0 g]; [intros E; apply ok_eq in E; subst; reflexivity|]. destruct (accumulate s1 g0 g (lit 0.0)) as [l'|] eqn:E; [|discriminate]. cbn [bind].
  intros X. apply ok_eq in X. subst l. apply A in E. rewrite lit0 in *. rewrite Rmult_0_r in E. rewrite E. cbn [bind map]. now rewrite Rmult_0_r.
Qed.

Lemma angular_scaled p t c k1 k2 a : k1 <> 0 -> angular_table p t (with_factor c k1) = Ok a -> angular_table p t (with_factor c k2) = Ok (map (Rmult (k2 / k1)) a).
Proof.
  intros K. unfold angular_table. apply table_scaled. intros x y v. unfold scaled_integral. destruct C26_library as [IN LB]. rewrite !LB.
  destruct (quad _ (ftheta p t (with_factor c k1)) x y) as [r|] eqn:ER; [|discriminate]. cbn [bind]. numR. intros E. apply ok_eq in E. subst v.
  pose proof (C26_linear _ _ _ _ _ _ _ (k2 / k1) 0 IN ER ER) as LIN.
  match type of LIN with quad _ ?f _ _ = _ => assert (EX : forall z, f z = ftheta p t (with_factor c k2) z) end.
  { intros z. unfold ftheta, da2de, da2dx. change (scattering_Es2 (with_factor c k1)) with (scattering_Es2 c). change (scattering_Es2 (with_factor c k2)) with (scattering_Es2 c).
    change (dedx (at_T p z) t (with_factor c k1)) with (dedx (at_T p z) t c). change (dedx (at_T p z) t (with_factor c k2)) with (dedx (at_T p z) t c).
    destruct (angular_scattering_power (at_T p z) t _) as [s|]; cbn [bind]; [|reflexivity]. destruct (dedx (at_T p z) t c) as [d|]; cbn [bind]; [|reflexivity]. f_equal. cbn [c_sfac with_factor]. numR.
    unfold Rdiv. replace (k2 * / k1 * (k1 * s * / d) + 0 * (k1 * s * / d)) with (k2 * s * / d * (k1 * / k1)) by ring. rewrite Rinv_r by exact K. ring. }
  unfold quad in LIN |- *. cbn [fst snd] in LIN |- *. rewrite (gl_ext _ _ _ _ x y (fun z _ => EX z)) in LIN. rewrite LIN. cbn [bind]. f_equal. ring.
Qed.

(** ** What calculate does with the cached data *)
Definition sigma_of (rs av : option (spline R)) (T th : R) : outcome R :=
  if Reqb th 0 then Ok 0 else Eout <- energy_out_sp rs T th ;; if Rltb Eout (1 / 1000) then Ok 0 else sigma_a_of av T Eout.

Lemma calculate_sigma_a junk p t c w r w' : c_scat c = sc_atima -> too_low (pT p) = false -> calculate (F:=R) junk p t c w = Ok (r, w') ->
  exists d w1, lookup junk p t c w = Ok (d, w1) /\ via junk p t c w1 w' /\ sigma_of (dp_range_spline d) (dp_av_spline d) (pT p) (m_th t) = Ok (r_sigma_a r).
Proof.
  intros SC TL H. apply calculate_inv in H. destruct H as [(L & _)|(_ & d & w1 & rg & dr & sv & LK & _ & _ & _ & H)]; [congruence|].
  exists d, w1. split; [exact LK|]. unfold sigma_of. rewrite <- lit0'.
  destruct H as [(B & -> & ->)|(B & Eout & dEdxo & sE & sa & tof & w2 & vx & w3 & cov & w4 & sp & EO & X & A2 & A1 & NR & ->)]; numR; rewrite B.
  - split; [apply via_refl|]. cbn [r_sigma_a]. apply (f_equal Ok). dec_norm. lra.
  - cbn [r_sigma_a]. rewrite EO. cbn [bind]. unfold exit_part in X. rewrite Ezero_R in X. numR.
    assert (V : via junk p t c w2 w') by (exact (via_trans _ _ _ _ _ _ _ (via_trans _ _ _ _ _ _ _ (angular_variance_via _ _ _ _ _ _ _ _ A2) (angular_variance_via _ _ _ _ _ _ _ _ A1)) (nonreaction_rate_via _ _ _ _ _ _ _ NR))).
    destruct X as [(XL & _ & _ & -> & _ & ->)|(XL & do_ & sa1 & _ & _ & _ & SA & SW & _)]; rewrite XL.
    + split; [exact V|]. apply (f_equal Ok). dec_norm. lra.
    + rewrite SC in SA, SW. cbn [negb andb Z.eqb] in SA, SW. change (sc_atima =? sc_atima)%Z with true in SA, SW. cbn [negb andb] in SA, SW. assert (sa1 = sa) by congruence. assert (w1 = w2) by congruence. subst sa1 w2. split; [exact V|exact SA].
Qed.

(** ** A first lookup fills a slot, and a key that is equal for the cache finds it *)
Lemma first_lookup junk p t c w d w1 : key_match p t c DataPoint0 = false -> wf w -> (forall e, In e (w_slots w) -> e = DataPoint0) -> lookup (F:=R) junk p t c w = Ok (d, w1) ->
  (exists k, rcalc junk calculate_DataPoint k p t c = Ok d) /\ w1 = inserted w d.
Proof.
  intros ND W EM L. unfold lookup in L. destruct (get_spec junk calculate_DataPoint w p t c W) as [(i & e & G & Hi & E & M)|(NM & [(why & X & G)|(d' & X & G & E)])]; rewrite G in L; cbn [bind] in L; [|discriminate|].
  - exfalso. apply nth_error_In, EM in E. congruence.
  - unfold slot in L. rewrite E in L. cbn [bind] in L. apply ok_eq in L. assert (d' = d) by congruence. subst d'. split; [exists (w_junk w); exact X|symmetry; exact (f_equal snd L)].
Qed.

Lemma found junk p t c (d : DataPoint R) : key_match p t c DataPoint0 = false -> key_match p t c d = true -> lookup (F:=R) junk p t c (inserted world0 d) = Ok (d, inserted world0 d).
Proof.
  intros ND M. unfold lookup. destruct (get_spec junk calculate_DataPoint (inserted world0 d) p t c (wf_inserted _ _ wf_world0)) as [(i & e & G & Hi & E & M')|(NM & _)].
  - rewrite G. cbn [bind]. unfold slot. rewrite E. cbn [bind]. assert (e = d); [|congruence].
    assert (IN : In e (w_slots (inserted world0 d))) by (eapply nth_error_In; exact E). unfold inserted in IN. cbn [w_slots] in IN.
    assert (FA : Forall (fun x : DataPoint R => x = DataPoint0 \/ x = d) (set_slot (w_slots world0) (cursor world0) d)).
    { apply Forall_set_slot; [|now right]. apply Forall_forall. intros x X. left. now apply repeat_spec in X. }
    rewrite Forall_forall in FA. destruct (FA e IN); [congruence|assumption].
  - exfalso. assert (F : key_match p t c d = false); [|congruence]. apply NM. unfold inserted. cbn [w_slots]. apply nth_error_In with (cursor (world0 (F:=R))). apply set_slot_same. apply cursor_in. apply wf_world0.
Qed.

Lemma made_splines junk k p t c (d : DataPoint R) : (forall k, junk k = junk 0%nat) -> rcalc junk calculate_DataPoint k p t c = Ok d ->
  angular_table p t c = Ok (dp_av d) /\ exists s, make_spline energy_table (dp_av d) (junk 0%nat) = Ok s /\ dp_av_spline d = Some s.
Proof.
  intros J H. destruct (rcalc_tables junk k p t c d H) as (_ & _ & A). split; [exact A|]. unfold rcalc in H. apply bind_ok in H. destruct H as (d0 & _ & H). unfold with_splines in H.
  apply bind_ok in H. destruct H as (s1 & _ & H). apply bind_ok in H. destruct H as (s2 & _ & H). apply bind_ok in H. destruct H as (s3 & H3 & H).
  rewrite J in H3. assert (E : dp_av d = dp_av d0 /\ dp_av_spline d = Some s3) by (split; apply ok_eq in H; rewrite <- H; reflexivity). destruct E as [E1 E2]. exists s3. rewrite E1. split; [exact H3|exact E2].
Qed.

Lemma nth_scaled k i l : nth i (map (Rmult k) l) 0 = k * nth i l 0.
Proof. rewrite <- (Rmult_0_r k) at 1. apply map_nth. Qed.
Lemma lin0 k a b : k * a + 0 * b = k * a.
Proof. ring. Qed.
(** sqrt of a negative number is 0 in the library of Coq: the equation holds for both signs of x *)
Lemma sqrt_mult_neg k x : 0 < k -> sqrt (k * x) = sqrt k * sqrt x.
Proof.
  intros K. destruct (Rle_lt_dec 0 x) as [P|N]; [apply sqrt_mult; lra|]. rewrite (sqrt_neg_0 x) by lra. rewrite sqrt_neg_0 by nra. ring.
Qed.

(** after a first call with the factor s1, lookups with factors within 1e-3 of s1 give the data computed with s1 *)
Lemma after_first junk p t c s1 r1 w1 : ~ key_equiv Projectile0 Material0 Config0 p t (with_factor c s1) -> too_low (pT p) = false -> c_scat c = sc_atima ->
  calculate (F:=R) junk p t (with_factor c s1) world0 = Ok (r1, w1) -> exists k1 d1,
  rcalc junk calculate_DataPoint k1 p t (with_factor c s1) = Ok d1 /\ lookup junk p t (with_factor c s1) world0 = Ok (d1, w1) /\ sigma_of (dp_range_spline d1) (dp_av_spline d1) (pT p) (m_th t) = Ok (r_sigma_a r1) /\
  forall s, ~ key_equiv Projectile0 Material0 Config0 p t (with_factor c s) -> Rabs (s1 - s) <= 1 / 1000 -> lookup junk p t (with_factor c s) w1 = Ok (d1, w1).
Proof.
  intros N1 TL SC H1.
  assert (ND : forall s, ~ key_equiv Projectile0 Material0 Config0 p t (with_factor c s) -> key_match p t (with_factor c s) DataPoint0 = false) by (intros s N; apply not_true_is_false; intros M; apply N; now apply key_match_R in M).
  destruct (calculate_sigma_a junk p t (with_factor c s1) world0 r1 w1 SC TL H1) as (d1 & x1 & L1 & V1 & S1). destruct (first_lookup _ _ _ _ _ _ _ (ND s1 N1) wf_world0 (fun e X => repeat_spec _ _ _ X) L1) as [[k1 C1] ->].
  assert (KM : forall s, Rabs (s1 - s) <= 1 / 1000 -> key_match p t (with_factor c s) d1 = true).
  { intros s CS. apply key_match_R. destruct (rcalc_key junk calculate_DataPoint calc_keys _ _ _ _ _ C1) as (-> & -> & ->). unfold key_equiv. cbn [with_factor c_zeff c_corr c_calc c_low c_scat c_sfac].
    rewrite Rminus_diag_eq by reflexivity. rewrite Rabs_R0. repeat split; try lra. }
  assert (W1 : w1 = inserted world0 d1).
  { destruct V1 as (h & OH & RH). apply (own_hits junk p t (with_factor c s1) h _ _ (wf_inserted _ _ wf_world0) OH); [|exact RH].
    apply existsb_exists. exists d1. split; [|apply KM; rewrite Rminus_diag_eq by reflexivity; rewrite Rabs_R0; lra].
    unfold inserted. cbn [w_slots]. apply nth_error_In with (cursor (world0 (F:=R))). apply set_slot_same. apply cursor_in. apply wf_world0. }
  subst w1. exists k1, d1. split; [exact C1|]. split; [exact L1|]. split; [exact S1|]. intros s N CS. apply found; [apply ND, N|apply KM, CS].
Qed.

(** after a call with the factor s1, the same call with a factor s2 that == takes for s1 gives the angular straggling of s1; right after a cache reset it gives that of s2 *)
Theorem C01_factor_history junk p t c s1 s2 r1 w1 r2 w2 r0 w0 : (forall k, junk k = junk 0%nat) -> ~ key_equiv Projectile0 Material0 Config0 p t (with_factor c s1) -> ~ key_equiv Projectile0 Material0 Config0 p t (with_factor c s2) ->
  1 / 1000 <= pT p -> c_scat c = sc_atima -> 0 < s1 -> 0 < s2 -> Rabs (s1 - s2) <= 1 / 1000 ->
  calculate junk p t (with_factor c s1) world0 = Ok (r1, w1) -> calculate junk p t (with_factor c s2) w1 = Ok (r2, w2) -> calculate junk p t (with_factor c s2) (data_reset w1) = Ok (r0, w0) ->
  r_sigma_a r2 = r_sigma_a r1 /\ r_sigma_a r0 = sqrt (s2 / s1) * r_sigma_a r1.
Proof.
  intros J N1 N2 HT SC P1 P2 CL H1 H2 H0.
  assert (TL : too_low (pT p) = false) by (apply not_true_is_false; rewrite too_low_R; lra).
  assert (M2 : key_match p t (with_factor c s2) DataPoint0 = false) by (apply not_true_is_false; intros M; apply N2; now apply key_match_R in M).
  destruct (after_first junk p t c s1 r1 w1 N1 TL SC H1) as (k1 & d1 & C1 & _ & S1 & HIT).
  destruct (calculate_sigma_a junk p t (with_factor c s2) _ r2 w2 SC TL H2) as (d2 & x2 & L2 & _ & S2). rewrite (HIT s2 N2 CL) in L2.
  assert (d2 = d1) by congruence. subst d2. split; [congruence|].
  destruct (calculate_sigma_a junk p t (with_factor c s2) _ r0 w0 SC TL H0) as (d0 & x0 & L0 & _ & S0).
  destruct (first_lookup _ _ _ _ _ _ _ M2 (wf_reset _) (fun e X => repeat_spec _ _ _ X) L0) as [[k0 C0] _].
  assert (SD : same_data p t (with_factor c s2) p t (with_factor c s1)) by (unfold same_data; auto 12).
  pose proof (rcalc_same junk J k0 k1 _ _ _ _ _ _ SD) as RS. rewrite C0, C1 in RS. destruct RS as [(_ & _ & ER & _) _].
  destruct (made_splines junk k1 _ _ _ _ J C1) as (A1 & a1 & MA1 & EA1). destruct (made_splines junk k0 _ _ _ _ J C0) as (A0 & a0 & MA0 & EA0).
  pose proof (angular_scaled p t c s1 s2 _ ltac:(lra) A1) as AS. rewrite A0 in AS. apply ok_eq in AS.
  assert (KP : 0 < s2 / s1) by (apply Rmult_lt_0_compat; [lra|now apply Rinv_0_lt_compat]).
  rewrite AS in MA0. set (k := s2 / s1) in *. clearbody k.
  assert (SP : forall x, exists v d, spline_eval a1 x = Ok v /\ spline_eval a0 x = Ok (k * v) /\ spline_deriv a1 x = Ok d /\ spline_deriv a0 x = Ok (k * d)).
  { intros x. rewrite energy_table_eq in MA0, MA1.
    destruct (C24_linear 600 (-3) 7 ltac:(lia) m600 l600 k 0 _ _ _ _ _ _ _ (map_length _ _) (map_length _ _) (fun i => eq_trans (nth_scaled k i _) (eq_sym (lin0 _ _ _))) MA0 MA1 MA1 x) as (v1 & v2 & e1 & e2 & Q1 & _ & Q3 & Q4 & _ & Q6).
    exists v1, e1. split; [exact Q1|]. split; [rewrite Q3; f_equal; ring|]. split; [exact Q4|rewrite Q6; f_equal; ring]. }
  rewrite EA1, ER in *. unfold sigma_of in S0, S1. rewrite EA0 in S0. destruct (Reqb (m_th t) 0).
  { apply ok_eq in S0. apply ok_eq in S1. rewrite <- S0, <- S1. ring. }
  destruct (energy_out_sp (dp_range_spline d1) (pT p) (m_th t)) as [Eo|]; [|discriminate]. cbn [bind] in S0, S1. destruct (Rltb Eo (1 / 1000)).
  { apply ok_eq in S0. apply ok_eq in S1. rewrite <- S0, <- S1. ring. }
  unfold sigma_a_of in S0, S1. cbn [interp_eval interp_deriv] in S0, S1. destruct (SP (pT p)) as (v1 & e1 & V1' & V0 & D1 & D0). destruct (SP Eo) as (v1' & e1' & V1'' & V0' & D1' & D0').
  rewrite V1', V1'', D1, D1' in S1. rewrite V0, V0', D0, D0' in S0. cbn [bind] in S0, S1.
  destruct (fltb _ _); apply ok_eq in S0; apply ok_eq in S1; rewrite <- S0, <- S1; cbn [fsqrt fmul fadd fsub NumR].
  - rewrite <- sqrt_mult_neg by lra. f_equal. ring.
  - rewrite <- sqrt_mult_neg by lra. f_equal. ring.
Qed.
Print Assumptions C01_factor_history.

(** ** The tabulated angular variance increases over the whole table *)
Theorem C46_table_whole p m c at_ : isotope p -> 0 < pA p -> known_material m -> radiation_ok m -> PropWinger.charge_known p m c -> 0 < c_sfac c -> angular_table p m c = Ok at_ ->
  nth 0 at_ 0 = 0 /\ forall i, (S i < 600)%nat -> nth i at_ 0 < nth (S i) at_ 0.
Proof.
  intros IP A KM RO CF SF HA. unfold angular_table in HA. apply scaled_nth in HA. destruct HA as (_ & Z0 & N). split; [exact Z0|]. intros i I.
  destruct (N i I) as (r & IR & D). destruct C26_library as [IN LB]. rewrite LB in IR.
  assert (0 < r); [|assert (0 < pA p * r) by (now apply Rmult_lt_0_compat); lra].
  refine (C26_positive _ _ _ _ _ IN (energy_incr i I) _ IR). intros x u X U. pose proof (energy_pos i ltac:(lia)) as EP.
  unfold ftheta, da2de in U. destruct (da2dx (at_T p x) m c) as [o|] eqn:EO; [|discriminate]. destruct (dedx (at_T p x) m c) as [d|] eqn:ED; [|discriminate]. cbn [bind] in U. apply ok_eq in U. rewrite <- U. cbn [fdiv NumR].
  destruct (C46_scattering_power (at_T p x) m c) as (v & E' & _ & V); cbn [at_T pT pA]; try lra; [exact (proj1 KM)|exact RO|].
  assert (v = o) by congruence. subst v. apply Rmult_lt_0_compat; [apply V; [|exact SF]; destruct IP; cbn [at_T pZ]; lra|]. apply Rinv_0_lt_compat.
  exact (proj1 (PropWinger.C52_positive_known (at_T p x) m c IP A ltac:(cbn [at_T pT]; lra) KM CF) d ED).
Qed.
Print Assumptions C46_table_whole.

Lemma water_radiation th : radiation_ok (water th).
Proof. unfold radiation_ok. repeat (apply Forall_cons; [cbn; lia|]). apply Forall_nil. Qed.
Lemma conf_sf_factor s : conf_sf s = with_factor conf s.
Proof. reflexivity. Qed.
Lemma carbon_key T th s : ~ key_equiv Projectile0 Material0 Config0 (carbon T) (water th) (conf_sf s).
Proof. intros ((_ & H & _) & _). cbn in H. lra. Qed.

(** the angular table handed out for the factor 1.0005 after a lookup with 1 is not the one computed for 1.0005 *)
Theorem C01_angular_table_refuted : exists p t c1 c2 d1 w1 d2 w2,
  ~ key_equiv Projectile0 Material0 Config0 p t c1 /\ ~ key_equiv Projectile0 Material0 Config0 p t c2 /\
  lookup junk0 p t c1 world0 = Ok (d1, w1) /\ lookup junk0 p t c2 w1 = Ok (d2, w2) /\ angular_table p t c2 <> Ok (dp_av d2).
Proof.
  exists (carbon 100), (water 1), (conf_sf 1), (conf_sf (10005 / 10000)).
  destruct (lookup_total junk0 (carbon 100) (water 1) (conf_sf 1) world0) as (d & w1 & L & _); auto using world_ok0 with cases.
  exists d, w1, d, w1. split; [apply carbon_key|]. split; [apply carbon_key|]. split; [exact L|].
  assert (ND : forall s, key_match (carbon 100) (water 1) (conf_sf s) DataPoint0 = false) by (intros s; apply not_true_is_false; intros M; apply (carbon_key 100 1 s); now apply key_match_R in M).
  destruct (first_lookup _ _ _ _ _ _ _ (ND 1) wf_world0 (fun e X => repeat_spec _ _ _ X) L) as [[k C] ->].
  destruct (rcalc_tables junk0 k _ _ _ d C) as (_ & _ & A). split.
  - apply found; [apply ND|]. apply key_match_R. destruct (rcalc_key junk0 calculate_DataPoint calc_keys _ _ _ _ _ C) as (-> & -> & ->).
    unfold key_equiv. cbn [conf_sf c_zeff c_corr c_calc c_low c_scat c_sfac]. rewrite Rminus_diag_eq by reflexivity. rewrite Rabs_R0. repeat split; try lra. rewrite Rabs_left; lra.
  - rewrite conf_sf_factor in A |- *. rewrite (angular_scaled _ _ _ 1 (10005 / 10000) _ ltac:(lra) A).
    destruct (C46_table_whole (carbon 100) (water 1) (with_factor conf 1) (dp_av d) (carbon_isotope 100) ltac:(cbn; lra) (water_known 1) (water_radiation 1) (or_intror (or_introl (default_charge 6))) ltac:(cbn; lra) A) as [Z0 INC].
    specialize (INC 0%nat ltac:(lia)). intros E. apply ok_eq in E. assert (X : nth 1 (map (Rmult (10005 / 10000 / 1)) (dp_av d)) 0 = nth 1 (dp_av d) 0) by (now rewrite E). rewrite nth_scaled in X. lra.
Qed.
Print Assumptions C01_angular_table_refuted.

(** a carbon ion crossing water: the three calls of C01_factor_history *)
Example C01_factor_case : exists T th r1 w1 r2 w2 r0 w0, let c k := with_factor conf k in
  30 < T < 100 /\ 0 < th /\ calculate junk0 (carbon T) (water th) (c 1) world0 = Ok (r1, w1) /\ 30 < r_Eout r1 < 100 /\ r_Eout r1 <> T /\
  calculate junk0 (carbon T) (water th) (c (10005 / 10000)) w1 = Ok (r2, w2) /\ calculate junk0 (carbon T) (water th) (c (10005 / 10000)) (data_reset w1) = Ok (r0, w0) /\
  r_sigma_a r2 = r_sigma_a r1 /\ r_sigma_a r0 = sqrt (10005 / 10000) * r_sigma_a r1.
Proof.
  destruct energy_280 as [E1 E2]. destruct (passing_at 280 30 100 ltac:(lia) ltac:(lia) ltac:(lra) ltac:(lra) E1 E2) as (T & th & TT & TP & PASS).
  destruct (PASS Config0) as (r1 & w1 & H1 & B1 & L1). change (with_default Config0 world0) with (world0 (F:=R)) in H1.
  assert (CC : conf = with_factor conf 1) by (unfold conf, with_factor, Config0; cbn [c_zeff c_corr c_calc c_low c_scat]; f_equal; apply lit1).
  rewrite CC in H1. set (c2 := with_factor conf (10005 / 10000)).
  assert (LP : legit_p (carbon T)) by auto with cases. assert (LT : legit_t (water th)) by auto with cases.
  assert (BT : forall x, x < 100 -> below_top x) by (intros x X; apply top_above; lra).
  assert (TL : too_low (pT (carbon T)) = false) by (apply not_true_is_false; rewrite too_low_R; cbn [pT carbon]; lra).
  assert (CK : forall s, ~ key_equiv Projectile0 Material0 Config0 (carbon T) (water th) (with_factor conf s)) by (intros s; apply (carbon_key T th s)).
  assert (CL : Rabs (1 - 10005 / 10000) <= 1 / 1000) by (rewrite Rabs_left; lra).
  destruct (after_first junk0 (carbon T) (water th) conf 1 r1 w1 (CK 1) TL eq_refl H1) as (k1 & d1 & _ & L & _ & HIT). specialize (HIT (10005 / 10000) (CK _) CL). fold c2 in HIT.
  assert (W1 : world_ok w1) by (destruct (lookup_total junk0 (carbon T) (water th) (with_factor conf 1) world0 LP LT world_ok0) as (dx & wx & LX & _ & OX & _); congruence).
  destruct (C12_agrees junk0 _ _ _ _ _ _ H1 TL) as (wx & _ & _ & _ & HE). unfold energy_out in HE. rewrite L in HE. cbn [bind pT carbon m_th water] in HE.
  assert (EO : energy_out_sp (dp_range_spline d1) T th = Ok (r_Eout r1)).
  { destruct (energy_out_sp (dp_range_spline d1) T th) as [e|]; cbn [bind] in HE; [assert (X : Ok (e, w1) = Ok (r_Eout r1, wx))|assert (X : UB (A:=R * world R) why = Ok (r_Eout r1, wx))].
    - apply HE. rewrite lit0'. numR. apply Reqb_false. lra.
    - congruence.
    - apply HE. rewrite lit0'. numR. apply Reqb_false. lra.
    - discriminate. }
  assert (EW : energy_out junk0 (carbon T) (water th) c2 w1 = Ok (r_Eout r1, w1)) by (unfold energy_out; rewrite HIT; cbn [bind pT carbon m_th water]; rewrite EO; reflexivity).
  destruct (calculate_good junk0 (carbon T) (water th) c2 w1 LP LT W1) as (r2 & w2 & H2 & _).
  { apply BT. cbn [pT carbon]. lra. }
  { intros e we HX. rewrite EW in HX. apply BT. assert (e = r_Eout r1) by congruence. subst e. lra. }
  assert (EX : exec_all junk0 [CCalculate (carbon T) (water th) (with_factor conf 1)] world0 = Ok w1).
  { cbn [exec_all]. unfold exec_all, ofold, exec. rewrite H1. reflexivity. }
  pose proof (C01_unobservable junk0 _ (CEnergyOut (carbon T) (water th) c2) w1 (fun _ => eq_refl) EX) as UN.
  destruct (calculate_good junk0 (carbon T) (water th) c2 (data_reset w1) LP LT (world_ok_reset w1)) as (r0 & w0 & H0 & _).
  { apply BT. cbn [pT carbon]. lra. }
  { intros e we HX. cbn [exec] in UN. unfold one in UN. rewrite EW, HX in UN. cbn [omap fst] in UN. apply BT.
    assert (X : Ok [r_Eout r1] = Ok [e]). { apply UN; [|reflexivity]. intros k [<-|[]]. apply CK. } assert (e = r_Eout r1) by congruence. subst e. lra. }
  exists T, th, r1, w1, r2, w2, r0, w0. cbv zeta. fold c2. split; [exact TT|]. split; [exact TP|]. split; [exact H1|]. split; [exact B1|]. split; [exact L1|]. split; [exact H2|]. split; [exact H0|].
  destruct (C01_factor_history junk0 (carbon T) (water th) conf 1 (10005 / 10000) r1 w1 r2 w2 r0 w0 (fun _ => eq_refl) (CK _) (CK _) ltac:(cbn [pT carbon]; lra) eq_refl ltac:(lra) ltac:(lra) CL H1 H2 H0) as [X Y].
  split; [exact X|]. rewrite Y. f_equal. f_equal. field.
Qed.
