(** * C61: the fields of a result beyond energies and ranges, and the functions that compute them alone *)
From Coq Require Import ZArith Reals List Bool Lra Lia.
From Verif Require Import Num NumR Structures DataQuadrature EnergyTable Spline Integrator Calculations NucData Reactions Storage Catima CacheProofs CacheFresh
  LayerProofs EnergyOutProofs QuadProofs PropEnergyOut PropQuad PropLayers PropTables TotalProofs Cases PropSafe ApiTotal PropFormula PropTof.
Import ListNotations.
Local Open Scope R_scope.

Lemma same_p (p : Projectile R) : at_T p (pT p) = p.
Proof. destruct p; reflexivity. Qed.
Lemma same_t (t : Material R) : set_thickness t (m_th t) = t.
Proof. destruct t; reflexivity. Qed.
Lemma ez : Ezero (F:=R) = 1 / 1000.
Proof. unfold Ezero. numR. dec_norm. lra. Qed.
Lemma not_low T : 1 / 1000 - 10 / 4503599627370496 <= T -> too_low (F:=R) T = false.
Proof.
  intros H. unfold too_low. rewrite ez. unfold numeric_epsilon. numR. destruct (Rltb_spec T (1 / 1000)); [|reflexivity]. cbn [andb].
  destruct (Rltb_spec T (1 / 1000 - Rlit 10 * (Rlit 1 / Rlit 4503599627370496))) as [G|]; [|reflexivity]. exfalso. revert G. dec_norm. lra.
Qed.
Lemma thick t : m_th (F:=R) t <> 0 -> feqb (m_th t) (lit 0) = false.
Proof. intros H. numR. destruct (Reqb_spec (m_th t) (Rlit 0)) as [G|]; [|reflexivity]. exfalso. apply H. rewrite G. dec_norm. lra. Qed.

Lemma ok_inj {A} (a b : A) : Ok a = Ok b -> a = b.
Proof. intros H. now injection H. Qed.
Section Result.
  Variable junk : nat -> R * R.
  (** one lookup is made; the state it leaves answers every later question about the same ion and material *)
  Lemma later p t c w d w1 : wf w -> lookup junk p t c w = Ok (d, w1) -> forall E th, lookup junk (at_T p E) (set_thickness t th) c w1 = Ok (d, w1).
  Proof. intros W L E th. apply (lookup_again junk w p t c d w1 E th W (self_key_R p t c) L). Qed.
  Lemma later0 p t c w d w1 : wf w -> lookup junk p t c w = Ok (d, w1) -> lookup junk p t c w1 = Ok (d, w1).
  Proof. intros W L. pose proof (later p t c w d w1 W L (pT p) (m_th t)) as H. rewrite same_p, same_t in H. exact H. Qed.
  Lemma laterE p t c w d w1 : wf w -> lookup junk p t c w = Ok (d, w1) -> forall E, lookup junk (at_T p E) t c w1 = Ok (d, w1).
  Proof. intros W L E. pose proof (later p t c w d w1 W L E (m_th t)) as H. rewrite same_t in H. exact H. Qed.
  Lemma av_world p t c o w d w1 v w2 : wf w -> lookup junk p t c w = Ok (d, w1) -> angular_variance junk p t c o w1 = Ok (v, w2) -> w2 = w1.
  Proof.
    intros W L H. unfold angular_variance in H. rewrite (later0 p t c w d w1 W L) in H. cbn [bind] in H. apply bind_ok in H. destruct H as (x & _ & H).
    apply (f_equal (fun o => match o with Ok y => snd y | UB _ => w2 end)) in H. cbn in H. symmetry. exact H.
  Qed.
  Lemma as_world p t c w d w1 v w2 : wf w -> lookup junk p t c w = Ok (d, w1) -> angular_straggling junk p t c w1 = Ok (v, w2) -> w2 = w1.
  Proof.
    intros W L H. unfold angular_straggling in H. apply bind_ok in H. destruct H as ([x w3] & H & E). pose proof (av_world _ _ _ _ _ _ _ _ _ W L H) as ->.
    apply (f_equal (fun o => match o with Ok y => snd y | UB _ => w2 end)) in E. cbn in E. symmetry. exact E.
  Qed.
  Lemma nr_world p t c w d w1 v w2 : wf w -> lookup junk p t c w = Ok (d, w1) -> nonreaction_rate junk p t c w1 = Ok (v, w2) -> w2 = w1.
  Proof.
    intros W L H. unfold nonreaction_rate in H. destruct (fltb _ _); [injection H; auto|]. destruct (fleb _ _); [injection H; auto|].
    apply bind_ok in H. destruct H as (a & _ & H). apply bind_ok in H. destruct H as (z & _ & H). rewrite (later0 p t c w d w1 W L) in H. cbn [bind] in H.
    apply bind_ok in H. destruct H as (x & _ & H). apply (f_equal (fun o => match o with Ok y => snd y | UB _ => w2 end)) in H. cbn in H. symmetry. exact H.
  Qed.

  (** what a call on a layer did; all questions are asked of the state it left *)
  Lemma result_inv p t c w r w' : wf w -> 1 / 1000 - 10 / 4503599627370496 <= pT p -> m_th t <> 0 -> calculate junk p t c w = Ok (r, w') ->
    exists d, (forall E th, lookup junk (at_T p E) (set_thickness t th) c w' = Ok (d, w')) /\ r_Ein r = pT p /\ interp_eval (dp_range_spline d) (pT p) = Ok (r_range r) /\
      energy_out_sp (dp_range_spline d) (pT p) (m_th t) = Ok (r_Eout r) /\
      (1 / 1000 <= r_Eout r -> exists do_, interp_deriv (dp_range_spline d) (r_Eout r) = Ok do_ /\ r_dEdxo r = pA p / do_ /\
        sigma_E_of p (dp_rs_spline d) (pT p) (r_Eout r) (r_dEdxo r) = Ok (r_sigma_E r) /\
        (c_scat c = sc_atima -> sigma_a_of (dp_av_spline d) (pT p) (r_Eout r) = Ok (r_sigma_a r)) /\
        (c_scat c <> sc_atima -> m_th t < r_range r -> angular_straggling junk p t c w' = Ok (r_sigma_a r, w')) /\
        (c_scat c <> sc_atima -> r_range r <= m_th t -> r_sigma_a r = 0) /\
        calculate_tof_from_E p (r_Eout r) t (w_default w') = Ok (r_tof r)) /\
      (exists vx, angular_variance junk p t c 2 w' = Ok (vx, w') /\ r_sigma_x r = sqrt vx) /\
      angular_variance junk p t c 1 w' = Ok (r_cov r, w') /\ nonreaction_rate junk p t c w' = Ok (r_sp r, w').
  Proof.
    intros W HT TH H. destruct (calculate_inv junk p t c w r w' H) as [[X _]|[_ (d & w1 & rg & dr & sv & L & RG & DR & SV & X)]]; [rewrite (not_low _ HT) in X; discriminate|].
    destruct X as [[X _]|[_ (Eout & dEdxo & sE & sa & tof & w2 & vx & w3 & cov & w4 & sp & EO & EX & VX & CV & SP & ->)]]; [rewrite (thick _ TH) in X; discriminate|].
    assert (w2 = w1).
    { destruct EX as [(_ & _ & _ & _ & _ & ->)|(_ & do_ & sa1 & _ & _ & _ & _ & SA & _)]; [reflexivity|].
      destruct (negb _ && _); [apply (as_world _ _ _ _ _ _ _ _ W L SA)|injection SA; auto]. }
    subst w2. pose proof (av_world _ _ _ _ _ _ _ _ _ W L VX) as ->. pose proof (av_world _ _ _ _ _ _ _ _ _ W L CV) as ->. pose proof (nr_world _ _ _ _ _ _ _ _ W L SP) as ->.
    exists d. split; [apply (later p t c w d w1 W L)|]. cbn [r_Ein r_range r_Eout r_dEdxo r_sigma_E r_sigma_a r_sigma_x r_cov r_tof r_sp].
    split; [reflexivity|]. split; [exact RG|]. split; [exact EO|]. split; [|split; [exists vx; split; [exact VX|reflexivity]|split; [exact CV|exact SP]]].
    intros EB. destruct EX as [(X & _)|(_ & do_ & sa1 & DO & -> & SE & SA1 & SA & TOF)].
    { exfalso. revert X. rewrite ez. numR. destruct (Rltb_spec Eout (1 / 1000)); [lra|discriminate]. }
    exists do_. split; [exact DO|]. split; [reflexivity|]. split; [exact SE|]. split; [|split; [|split; [|exact TOF]]].
    - intros HC. rewrite HC in SA1, SA. rewrite Z.eqb_refl in SA1, SA. cbn [negb andb] in SA. injection SA as ->. exact SA1.
    - intros HC LT. apply Z.eqb_neq in HC. rewrite HC in SA. cbn [negb andb] in SA. revert SA. numR. destruct (Rltb_spec (m_th t) rg); [auto|lra].
    - intros HC LE. apply Z.eqb_neq in HC. rewrite HC in SA1, SA. cbn [negb andb] in SA. revert SA. numR. destruct (Rltb_spec (m_th t) rg); [lra|]. intros SA. injection SA as <-. injection SA1 as <-. dec_norm. lra.
  Qed.

  (** ** Energy straggling: the width of the range distribution collected in the layer, times the stopping power where the ion leaves, per nucleon.
      The variance collected is the difference of the range variances at entrance and exit, or, for ions that keep more than 99.9 percent of
      their energy, the trapezoidal rule for its derivative. *)
  Theorem C61_energy_straggling p t c w r w' : wf w -> 1 / 1000 - 10 / 4503599627370496 <= pT p -> m_th t <> 0 -> calculate junk p t c w = Ok (r, w') ->
    1 / 1000 <= r_Eout r ->
    dedx_from_range junk (at_T p (r_Eout r)) t c w' = Ok (r_dEdxo r, w') /\
    (0.999 * pT p < r_Eout r -> exists s1 s2, domega2de junk p (pT p) t c w' = Ok (s1, w') /\ domega2de junk p (r_Eout r) t c w' = Ok (s2, w') /\
       r_sigma_E r = r_dEdxo r * sqrt ((pT p - r_Eout r) * ((s1 + s2) / 2)) / pA p) /\
    (r_Eout r <= 0.999 * pT p -> exists v1 v2, range_variance junk p (pT p) t c w' = Ok (v1, w') /\ range_variance junk p (r_Eout r) t c w' = Ok (v2, w') /\
       r_sigma_E r = r_dEdxo r * sqrt (v1 - v2) / pA p /\ energy_straggling_from_E junk p (pT p) (r_Eout r) t c w' = Ok (r_sigma_E r, w')).
  Proof.
    intros W HT TH H EB. destruct (result_inv p t c w r w' W HT TH H) as (d & L & _ & _ & EO & X & _). destruct (X EB) as (do_ & DO & DE & SE & _). clear X.
    assert (L0 : lookup junk p t c w' = Ok (d, w')) by (rewrite <- (same_p p), <- (same_t t); apply L).
    assert (LE : forall E, lookup junk (at_T p E) t c w' = Ok (d, w')) by (intros E; rewrite <- (same_t t); apply L).
    assert (TL : thin_target_limit (F:=R) = 0.999) by (unfold thin_target_limit; numR; dec_norm; decs; lra).
    unfold sigma_E_of in SE. rewrite TL in SE. revert SE. numR. intros SE.
    split; [unfold dedx_from_range; rewrite LE; cbn [bind]; change (pT (at_T p (r_Eout r))) with (r_Eout r); rewrite DO; cbn [bind at_T pA]; rewrite DE; reflexivity|]. split; intros C.
    - destruct (Rltb_spec (0.999 * pT p) (r_Eout r)) as [_|]; [|lra]. apply bind_ok in SE. destruct SE as (s1 & S1 & SE). apply bind_ok in SE. destruct SE as (s2 & S2 & SE).
      exists s1, s2. unfold domega2de. rewrite L0. cbn [bind]. rewrite S1, S2. cbn [bind]. split; [reflexivity|]. split; [reflexivity|].
      apply ok_inj in SE. rewrite <- SE. do 3 f_equal. dec_norm. field.
    - destruct (Rltb_spec (0.999 * pT p) (r_Eout r)) as [|_]; [lra|]. apply bind_ok in SE. destruct SE as (v1 & V1 & SE). apply bind_ok in SE. destruct SE as (v2 & V2 & SE).
      exists v1, v2. unfold range_variance, energy_straggling_from_E. rewrite L0. cbn [bind]. rewrite V1, V2, DO. cbn [bind]. split; [reflexivity|]. split; [reflexivity|].
      apply ok_inj in SE. split; [symmetry; exact SE|]. change (fdiv (pA p) do_) with (pA p / do_). rewrite <- DE. change (fdiv (fmul (r_dEdxo r) (fsqrt (fsub v1 v2))) (pA p)) with (r_dEdxo r * sqrt (v1 - v2) / pA p). rewrite SE. reflexivity.
  Qed.

  (** ** Angular straggling: with the tabulated scattering power the root of the variance collected between entrance and exit energy; with the other
      models the function angular_straggling, but nothing when the layer stops the ion *)
  Theorem C61_angle p t c w r w' : wf w -> 1 / 1000 - 10 / 4503599627370496 <= pT p -> m_th t <> 0 -> calculate junk p t c w = Ok (r, w') ->
    1 / 1000 <= r_Eout r ->
    (c_scat c = sc_atima -> exists d, lookup junk p t c w' = Ok (d, w') /\
      (0.999 * pT p < r_Eout r -> exists s1 s2, interp_deriv (dp_av_spline d) (pT p) = Ok s1 /\ interp_deriv (dp_av_spline d) (r_Eout r) = Ok s2 /\
        r_sigma_a r = sqrt ((pT p - r_Eout r) * ((s1 + s2) / 2))) /\
      (r_Eout r <= 0.999 * pT p -> exists v1 v2, interp_eval (dp_av_spline d) (pT p) = Ok v1 /\ interp_eval (dp_av_spline d) (r_Eout r) = Ok v2 /\
        r_sigma_a r = sqrt (v1 - v2))) /\
    (c_scat c <> sc_atima -> m_th t < r_range r -> angular_straggling junk p t c w' = Ok (r_sigma_a r, w')) /\
    (c_scat c <> sc_atima -> r_range r <= m_th t -> r_sigma_a r = 0).
  Proof.
    intros W HT TH H EB. destruct (result_inv p t c w r w' W HT TH H) as (d & L & _ & _ & EO & X & _). destruct (X EB) as (do_ & DO & DE & SE & SA & SB & SC & _). clear X.
    assert (L0 : lookup junk p t c w' = Ok (d, w')) by (rewrite <- (same_p p), <- (same_t t); apply L).
    assert (TL : thin_target_limit (F:=R) = 0.999) by (unfold thin_target_limit; numR; dec_norm; decs; lra).
    split; [|split; assumption]. intros HC. specialize (SA HC). exists d. split; [exact L0|]. unfold sigma_a_of in SA. rewrite TL in SA. revert SA. numR. intros SA. split; intros C.
    - destruct (Rltb_spec (0.999 * pT p) (r_Eout r)) as [_|]; [|lra]. apply bind_ok in SA. destruct SA as (s1 & S1 & SA). apply bind_ok in SA. destruct SA as (s2 & S2 & SA).
      exists s1, s2. split; [exact S1|]. split; [exact S2|]. apply ok_inj in SA. rewrite <- SA. f_equal. dec_norm. field.
    - destruct (Rltb_spec (0.999 * pT p) (r_Eout r)) as [|_]; [lra|]. apply bind_ok in SA. destruct SA as (v1 & V1 & SA). apply bind_ok in SA. destruct SA as (v2 & V2 & SA).
      exists v1, v2. split; [exact V1|]. split; [exact V2|]. apply ok_inj in SA. symmetry. exact SA.
  Qed.

  (** ** Position, covariance and survival: the functions of the interface asked alone *)
  Theorem C61_moments p t c w r w' : wf w -> 1 / 1000 - 10 / 4503599627370496 <= pT p -> m_th t <> 0 -> calculate junk p t c w = Ok (r, w') ->
    (exists v, angular_variance junk p t c 2 w' = Ok (v, w') /\ r_sigma_x r = sqrt v) /\
    angular_variance junk p t c 1 w' = Ok (r_cov r, w') /\ nonreaction_rate junk p t c w' = Ok (r_sp r, w').
  Proof. intros W HT TH H. destruct (result_inv p t c w r w' W HT TH H) as (d & _ & _ & _ & _ & _ & X). exact X. Qed.

  (** ** The straggling between two energies *)
  Theorem C61_between p T Tout t c w : wf w -> forall v w', energy_straggling_from_E junk p T Tout t c w = Ok (v, w') ->
    exists S v1 v2, dedx_from_range junk (at_T p Tout) t c w' = Ok (S, w') /\ range_variance junk p T t c w' = Ok (v1, w') /\ range_variance junk p Tout t c w' = Ok (v2, w') /\
      v = S * sqrt (v1 - v2) / pA p.
  Proof.
    intros W v w' H. unfold energy_straggling_from_E in H. apply bind_ok in H. destruct H as ([d w1] & L & H). apply bind_ok in H. destruct H as (dr & DR & H).
    apply bind_ok in H. destruct H as (v1 & V1 & H). apply bind_ok in H. destruct H as (v2 & V2 & H). apply ok_inj in H. apply pair_equal_spec in H. destruct H as [<- <-].
    exists (pA p / dr), v1, v2. unfold dedx_from_range, range_variance. rewrite (laterE p t c w d w1 W L), (later0 p t c w d w1 W L). cbn [bind].
    change (pT (at_T p Tout)) with Tout. rewrite DR, V1, V2. cbn [bind at_T pA]. repeat (split; [reflexivity|]). reflexivity.
  Qed.
  (** the layer in which the ion loses the energy between the two *)
  Theorem C61_angle_between p Tout t c w : wf w -> forall v w', angular_straggling_from_E junk p Tout t c w = Ok (v, w') ->
    exists r1 r2, range junk p t c w' = Ok (r1, w') /\ range junk (at_T p Tout) t c w' = Ok (r2, w') /\ angular_straggling junk p (set_thickness t (r1 - r2)) c w' = Ok (v, w').
  Proof.
    intros W v w' H. unfold angular_straggling_from_E in H. apply bind_ok in H. destruct H as ([d w1] & L & H). apply bind_ok in H. destruct H as (r1 & R1 & H).
    apply bind_ok in H. destruct H as (r2 & R2 & H). change (fsub r1 r2) with (r1 - r2) in H.
    assert (L2 : lookup junk p (set_thickness t (r1 - r2)) c w1 = Ok (d, w1)) by (rewrite <- (same_p p); apply (later p t c w d w1 W L)).
    assert (W1 : w' = w1).
    { unfold angular_straggling, angular_variance in H. rewrite L2 in H. cbn [bind] in H. apply bind_ok in H. destruct H as ([x w3] & H & E). apply bind_ok in H. destruct H as (y & _ & H).
      apply ok_inj in H. apply pair_equal_spec in H. destruct H as [_ <-]. apply ok_inj in E. apply pair_equal_spec in E. symmetry. apply E. }
    subst w'. exists r1, r2. unfold range. rewrite (laterE p t c w d w1 W L), (later0 p t c w d w1 W L). cbn [bind]. change (pT (at_T p Tout)) with Tout. rewrite R1, R2. cbn [bind].
    split; [reflexivity|]. split; [reflexivity|exact H].
  Qed.
End Result.
Print Assumptions C61_energy_straggling.
Print Assumptions C61_angle.
Print Assumptions C61_moments.
Print Assumptions C61_between.
Print Assumptions C61_angle_between.

(** ** Time of flight in ns: 10 mm/cm, c in mm/ns; Gauss' rule with eight points for the integral of A dE / (rho S beta c) *)
Lemma pair_same nodes f g p q : (forall n, In n nodes -> f (p * fst n + q) = g (p * fst n + q) /\ f (- p * fst n + q) = g (- p * fst n + q)) ->
  pair_sum nodes f p q = pair_sum nodes g p q.
Proof.
  induction nodes as [|[x w] l IH]; intros H; [reflexivity|]. cbn [pair_sum]. destruct (H (x, w) (or_introl eq_refl)) as [A B]. cbn [fst] in A, B.
  rewrite A, B, IH; [reflexivity|]. intros n IN. apply H. right. exact IN.
Qed.
Definition gauss8 (f : R -> R) (a b : R) : R :=
  (b - a) / 2 * pair_sum (gl_nodes GL8_x GL8_w) f ((b - a) / 2) ((b + a) / 2).
Definition light : R := 299.792458.
Definition stopping p t c (E : R) : R := match dedx (F:=R) (at_T p E) t c with Ok s => s | UB _ => 0 end.
Lemma rule8 : In (8%nat, GL8_x, GL8_w) gl_rules.
Proof. unfold gl_rules. do 5 right. left. reflexivity. Qed.
Lemma integral_value f a b v : integrate (F:=R) f a b = Ok v -> (forall x, used (gl_nodes GL8_x GL8_w) ((b - a) / 2) ((b + a) / 2) x -> f x = Ok (tot f x)) /\ v = gauss8 (tot f) a b.
Proof.
  intros H. change (quad (8%nat, GL8_x, GL8_w) f a b = Ok v) in H. split; [apply (quad_defined _ _ _ _ _ _ _ rule8 H)|]. rewrite (quad_node _ _ _ _ _ _ _ rule8 H). reflexivity.
Qed.
Theorem C61_time_of_flight p Eout t c tof : calculate_tof_from_E (F:=R) p Eout t c = Ok tof ->
  (forall E, used (gl_nodes GL8_x GL8_w) ((pT p - Eout) / 2) ((pT p + Eout) / 2) E -> dedx (at_T p E) t c = Ok (stopping p t c E)) /\
  tof = 10 * pA p / (light * m_rho t) * gauss8 (fun E => 1 / (stopping p t c E * velocity E)) Eout (pT p).
Proof.
  unfold calculate_tof_from_E. intros H. apply bind_ok in H. destruct H as (v & V & H). apply ok_inj in H. apply integral_value in V. destruct V as [D ->].
  assert (T : forall E, used (gl_nodes GL8_x GL8_w) ((pT p - Eout) / 2) ((pT p + Eout) / 2) E ->
    dedx (at_T p E) t c = Ok (stopping p t c E) /\ tot (tof_integrand p t c) E = 1 / (stopping p t c E * velocity E)).
  { intros E U. specialize (D E U). unfold tof_integrand, stopping, tot in *. destruct (dedx (at_T p E) t c) as [s|]; [|discriminate D]. cbn [bind]. split; [reflexivity|].
    rewrite beta_code. numR. replace (Rlit 1.0) with 1 by (dec_norm; lra). reflexivity. }
  split; [intros E U; apply T; exact U|]. subst tof. unfold tof_scale. numR. replace (c_light (F:=R)) with light by (unfold light, c_light; numR; reflexivity).
  replace (Rlit 10.0) with 10 by (dec_norm; lra).
  replace (gauss8 (tot (tof_integrand p t c)) Eout (pT p)) with (gauss8 (fun E => 1 / (stopping p t c E * velocity E)) Eout (pT p)).
  2:{ unfold gauss8. f_equal. apply pair_same. intros n IN. split; symmetry; apply T; exists n; (split; [exact IN|]); [left|right]; reflexivity. }
  unfold Rdiv. ring.
Qed.
Print Assumptions C61_time_of_flight.

(** ** The table of flight times: entry i is the time from the energy i of the grid down to its first energy *)
Lemma tof_loop_acc f : forall rest lo prev l, tof_loop (F:=R) f lo rest prev = Ok l -> accumulate f lo rest prev = Ok l.
Proof.
  induction rest as [|hi rest IH]; intros lo prev l H; cbn [tof_loop] in H; cbn [accumulate]; [exact H|].
  destruct (f lo hi) as [r|]; [|discriminate H]. cbn [bind] in H |- *. destruct (tof_loop f hi rest (fadd r prev)) as [l'|] eqn:E; [|discriminate H]. cbn [bind] in H.
  rewrite (IH _ _ _ E). exact H.
Qed.
Theorem C61_tof_table p t c l : calculate_tof (F:=R) p t c = Ok l ->
  length l = 600%nat /\ calculate_tof_from_E (at_T p (energy 0)) (1 / 1000) t c = Ok (nth 0 l 0) /\
  forall i, (S i < 600)%nat -> calculate_tof_from_E (at_T p (energy (S i))) (energy i) t c = Ok (nth (S i) l 0 - nth i l 0).
Proof.
  unfold calculate_tof. cbv zeta. intros H. pose proof grid_length as GL.
  assert (P : forall lo hi, (r <- integrate (tof_integrand p t c) lo hi ;; Ok (tof_scale p t r)) = calculate_tof_from_E (at_T p hi) lo t c) by (intros lo hi; reflexivity).
  unfold energy. destruct (et_values energy_table) as [|e0 rest] eqn:EV; [discriminate H|]. cbn [length] in GL.
  apply bind_ok in H. destruct H as (v0 & V0 & H). apply bind_ok in H. destruct H as (l' & L & H). apply ok_inj in H. subst l. rewrite P, ez in V0.
  apply tof_loop_acc in L. apply accumulate_nth in L. destruct L as [LEN N].
  split; [cbn [length]; rewrite LEN; lia|]. split; [exact V0|]. intros i I. destruct (N i ltac:(lia)) as (r & A & B). rewrite P in A.
  change (nth (S i) (e0 :: rest) 0) with (nth i rest 0). change (nth (S i) (v0 :: l') 0) with (nth i l' 0). rewrite A. f_equal. rewrite B. ring.
Qed.
Print Assumptions C61_tof_table.

(** ** A stack: the energy widths of the layers add in quadrature; nothing is left when the ion has stopped *)
Lemma totals_sE : forall ms rs (t : Result R), length rs = length ms -> r_sigma_E (totals ms rs t) = r_sigma_E t + Rsum (map (fun r => r_sigma_E r ^ 2) rs).
Proof.
  unfold totals. induction ms as [|m ms IH]; intros [|r rs] t H; try discriminate; [cbn; lra|].
  cbn [combine fold_left fst snd map]. rewrite IH by now injection H. unfold Rsum. cbn [layer_update r_sigma_E fold_right]. numR. ring.
Qed.
Theorem C61_stack (junk : nat -> R * R) p ps ms c w mr w' : calculate_layers junk p ps ms c w = Ok (mr, w') ->
  r_sigma_E (mr_total mr) = if Rlt_dec (1 / 1000) (match mr_results mr with [] => pT p | _ => r_Eout (last (mr_results mr) Result0) end)
    then sqrt (Rsum (map (fun r => r_sigma_E r ^ 2) (mr_results mr))) else 0.
Proof.
  intros H0. pose proof H0 as H. unfold calculate_layers in H. apply bind_ok in H. destruct H as ([[[rs e'] tot] w1] & H & E).
  injection E as <- <-. apply layers_stack in H. destruct H as (H & ->).
  pose proof (stack_exit _ _ _ _ _ _ _ _ _ H) as EL. cbn [mr_results mr_total]. rewrite <- EL.
  unfold total_finish. rewrite ez. numR. destruct (Rltb_spec (1 / 1000) e'), (Rlt_dec (1 / 1000) e'); try contradiction; cbn [r_sigma_E]; [|dec_norm; lra].
  rewrite totals_sE by (eapply stack_length; eauto). cbn [total0 r_sigma_E]. f_equal. numR. dec_norm. lra.
Qed.
Print Assumptions C61_stack.

(** a carbon ion of between 30 and 100 MeV/u leaves the layer of water *)
Example C61_case : exists T th r w', wf (with_default conf (world0 (F:=R))) /\ 1 / 1000 - 10 / 4503599627370496 <= pT (carbon T) /\ m_th (water th) <> 0 /\
  calculate junk0 (carbon T) (water th) conf (with_default conf world0) = Ok (r, w') /\ 1 / 1000 <= r_Eout r.
Proof.
  destruct energy_280 as [E1 E2]. destruct (passing_at 280 30 100 ltac:(lia) ltac:(lia) ltac:(lra) ltac:(lra) E1 E2) as (T & th & TT & TP & PASS).
  destruct (PASS conf) as (r1 & w1 & H1 & B1 & L1). exists T, th, r1, w1. split; [exact wf_world0|]. cbn [pT carbon m_th water]. split; [lra|]. split; [lra|]. split; [exact H1|lra].
Qed.
