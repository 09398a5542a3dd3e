(** * C53: which calls can be undefined at all

    Inputs as in [legit_p], [legit_t]: 1 <= Z < 109, masses up to 1000, charge numbers of the
    constituents 1 to 1000; energies, thicknesses, densities, configurations are arbitrary. *)
From Coq Require Import ZArith Reals List Bool Lra Lia.
From Verif Require Import Num NumR Structures DataQuadrature EnergyTable Spline Integrator Calculations NucData
  Reactions Storage Catima CacheProofs CacheFresh History KeyEq ApiCache GridProofs BoundsProofs TotalProofs
  ApiTotal Cases QuadProofs PropQuad LayerProofs PropDedx PropStrag PropLayers PropEnergyOut PropThin.
Import ListNotations.
Local Open Scope R_scope.

Definition between (a b x : R) : Prop := a <= x <= b \/ b <= x <= a.

Lemma used_hull a b x : used (gl_nodes GL8_x GL8_w) ((b - a) / 2) ((b + a) / 2) x -> between a b x.
Proof.
  destruct C26_library as [IN _]. intros U. destruct (Rtotal_order a b) as [L|[E|L]].
  - left. pose proof (used_inside _ _ _ a b x IN L U). lra.
  - left. destruct U as (z & _ & [X|X]); subst b; rewrite X; replace ((a - a) / 2) with 0 by field; lra.
  - right. pose proof (used_inside _ _ _ b a x IN L (proj2 (used_swap _ a b x) U)). lra.
Qed.
Lemma integrate_hull f a b : (forall x, between a b x -> defined (f x)) -> defined (integrate (F:=R) f a b).
Proof.
  intros H. destruct C26_library as [IN L]. rewrite L. rewrite quad_total; [eexists; reflexivity|exact IN|].
  intros x U. destruct (H x (used_hull a b x U)) as [v E]. unfold tot. rewrite E. reflexivity.
Qed.

(** ** The time of flight is undefined only if the integration meets the end of the tables *)
Theorem C53_tof p Eout t c : legit_p p -> legit_t t ->
  (forall x, between Eout (pT p) x -> ~ just_below_table_end x) -> exists v, calculate_tof_from_E (F:=R) p Eout t c = Ok v.
Proof.
  intros LP LT H. assert (D : defined (integrate (tof_integrand p t c) Eout (pT p))).
  { apply integrate_hull. intros x X. unfold tof_integrand.
    destruct (C38_in_bounds (at_T p x) t c) as [[v ->] _]; [apply LP| |exact (H x X)|cbn [bind]; eexists; reflexivity].
    intros a A. unfold legit_t in LT. rewrite Forall_forall in LT. apply (LT a A). }
  unfold calculate_tof_from_E. destruct D as [v ->]. cbn [bind]. eexists. reflexivity.
Qed.
Print Assumptions C53_tof.

(** and then it is *)
Theorem C53_window_refuted p Eout t c : legit_p p -> legit_t t -> m_atoms t <> [] -> corr_has c no_lindhard = false ->
  just_below_table_end Eout -> just_below_table_end (pT p) -> calculate_tof_from_E (F:=R) p Eout t c = UB OutOfBounds.
Proof.
  intros LP LT NE NL JE JT. unfold calculate_tof_from_E. replace (integrate (tof_integrand p t c) Eout (pT p)) with (UB OutOfBounds : outcome R); [reflexivity|].
  destruct C26_library as [IN L]. rewrite L. unfold quad. cbn [fst snd]. rewrite (gl_ext 8 _ _ (fun _ => UB OutOfBounds)); [reflexivity|].
  intros x U. unfold tof_integrand. assert (JX : just_below_table_end x) by (unfold just_below_table_end in *; destruct (used_hull Eout (pT p) x U); lra).
  destruct (C38_table_end_refuted (at_T p x) t c) as [E _]; [apply LP|exact NE| |exact JX|rewrite (E NL); reflexivity].
  intros a A. unfold legit_t in LT. rewrite Forall_forall in LT. apply (LT a A).
Qed.
Print Assumptions C53_window_refuted.

Section Calls.
Variable junk : nat -> R * R.

(** the energies of this call of calculate enclose one just below the end of the tables *)
Definition meets_end (p : Projectile R) (t : Material R) (c : Config R) (w : world R) : Prop :=
  exists Eout w' x, energy_out junk p t c w = Ok (Eout, w') /\ between Eout (pT p) x /\ just_below_table_end x.

Lemma calculate_away p t c w : legit_p p -> legit_t t -> world_ok w -> ~ meets_end p t c w -> good w (calculate junk p t c w).
Proof.
  intros LP LT W ME. unfold calculate. cbv zeta.
  destruct (_ && _)%bool; [now apply good_ok|].
  destruct (lookup_total junk p t c w LP LT W) as (d & w1 & L & OD & OW & ED). rewrite L. cbn [bind].
  assert (G : forall B (x : outcome (B * world R)), good w1 x -> good w x).
  { intros B x (a & w2 & E & OW2 & ED2). exists a, w2. split; auto. split; auto. congruence. }
  apply G.
  apply good_pure; [now apply dp_range_ok|]. intros rg _.
  apply good_pure; [now apply dp_range_d_ok|]. intros dr _.
  apply good_pure; [now apply dp_rs_ok|]. intros sv _.
  destruct (feqb (m_th t) (lit 0)); [now apply good_ok|].
  destruct (energy_out_sp_defined d (pT p) (m_th t) OD) as (Eo & EO).
  assert (TOF : forall c', defined (calculate_tof_from_E p Eo t c')).
  { intros c'. apply C53_tof; [exact LP|exact LT|]. intros x X J. apply ME. exists Eo, w1, x. split; [|split; assumption].
    unfold energy_out. rewrite L. cbn [bind]. rewrite EO. reflexivity. }
  rewrite EO. cbn [bind].
  apply good_bind.
  - destruct (fltb Eo Ezero); [now apply good_ok|].
    apply good_pure; [now apply dp_range_d_ok|]. intros do_ _.
    apply good_pure.
    { unfold sigma_E_of. destruct (fltb _ _).
      - apply defined_bind; [now apply dp_rs_d_ok|]. intros ? _. apply defined_bind; [now apply dp_rs_d_ok|]. intros ? _. apply defined_Ok.
      - apply defined_bind; [now apply dp_rs_ok|]. intros ? _. apply defined_bind; [now apply dp_rs_ok|]. intros ? _. apply defined_Ok. }
    intros sE _. apply good_pure.
    { destruct (Z.eqb _ _); [|apply defined_Ok]. unfold sigma_a_of. destruct (fltb _ _).
      - apply defined_bind; [now apply dp_av_d_ok|]. intros ? _. apply defined_bind; [now apply dp_av_d_ok|]. intros ? _. apply defined_Ok.
      - apply defined_bind; [now apply dp_av_ok|]. intros ? _. apply defined_bind; [now apply dp_av_ok|]. intros ? _. apply defined_Ok. }
    intros sa _. apply good_bind.
    { destruct (_ && _)%bool; [now apply angular_straggling_good|now apply good_ok]. }
    intros sa' w2 _ OW2 ED2.
    apply good_pure; [apply TOF|]. intros tof _. now apply good_ok.
  - intros [[[dEdxo sE] sa] tof] w2 _ OW2 ED2.
    apply good_bind; [now apply angular_variance_good|]. intros vx w3 _ OW3 _.
    apply good_bind; [now apply angular_variance_good|]. intros cv w4 _ OW4 _.
    apply good_bind; [now apply nonreaction_rate_good|]. intros sp w5 _ OW5 _.
    now apply good_ok.
Qed.

(** ** One layer, a stack, any sequence of calls *)
Definition fine {A} (x : outcome (A * world R)) : Prop := exists a w', x = Ok (a, w') /\ world_ok w'.

Theorem C53_calculate p t c w : legit_p p -> legit_t t -> world_ok w -> fine (calculate junk p t c w) \/ meets_end p t c w.
Proof.
  intros LP LT W. destruct (Classical_Prop.classic (meets_end p t c w)) as [M|M]; [now right|left].
  destruct (calculate_away p t c w LP LT W M) as (r & w' & E & O & _). exists r, w'. split; assumption.
Qed.
Print Assumptions C53_calculate.

(** in a stack: some layer is reached (state [w1], energy [e]) and there meets the end of the tables *)
Definition stack_meets_end (p : Projectile R) (c : Config R) (ls : list (Material R)) (e0 : R) (tot : Result R) (w : world R) : Prop :=
  exists before m after rs e tot' w1, ls = before ++ m :: after /\
    layers_loop junk p c before e0 tot w = Ok (rs, e, tot', w1) /\ meets_end (at_T p e) m c w1.

Lemma layers_cases p c ls : legit_p p -> Forall legit_t ls -> forall e tot w, world_ok w ->
  fine (layers_loop junk p c ls e tot w) \/ stack_meets_end p c ls e tot w.
Proof.
  intros LP. induction ls as [|m ls IH]; intros LT e tot w W; [left; do 2 eexists; split; [reflexivity|exact W]|].
  inversion LT; subst. cbn [layers_loop].
  destruct (C53_calculate (at_T p e) m c w (legit_at p e LP) H1 W) as [(r & w1 & E & W1)|M].
  2:{ right. exists [], m, ls, [], e, tot, w. split; [reflexivity|]. split; [reflexivity|exact M]. }
  rewrite E. cbn [bind]. destruct (IH H2 (r_Eout r) (layer_update m r tot) w1 W1) as [([[rs e'] tot'] & w2 & E2 & W2)|(b & m' & a & rs & e' & tot' & w2 & -> & E2 & M)].
  - left. rewrite E2. cbn [bind]. do 2 eexists. split; [reflexivity|exact W2].
  - right. exists (m :: b), m', a, (r :: rs), e', tot', w2. split; [reflexivity|]. split; [|exact M].
    cbn [layers_loop]. rewrite E. cbn [bind]. rewrite E2. reflexivity.
Qed.
Theorem C53_layers p ps ls c w : legit_p p -> Forall legit_t ls -> world_ok w ->
  fine (calculate_layers junk p ps ls c w) \/ stack_meets_end p c ls (pT p) (total0 p ps) w.
Proof.
  intros LP LT W. destruct (layers_cases p c ls LP LT (pT p) (total0 p ps) w W) as [([[rs e] tot] & w' & E & W')|M]; [left|now right].
  unfold calculate_layers. rewrite E. cbn [bind]. do 2 eexists. split; [reflexivity|exact W'].
Qed.
Print Assumptions C53_layers.

Definition call_meets_end (q : call R) (w : world R) : Prop :=
  match q with
  | CCalculate p t c => meets_end p t c w
  | CLayers p ps ls c => stack_meets_end p c ls (pT p) (total0 p ps) w
  | _ => False
  end.

Theorem C53_call q w : legit_call q -> world_ok w -> fine (exec junk q w) \/ call_meets_end q w.
Proof.
  intros L W. destruct q; try (left; apply simple_total; [exact I|exact L|exact W]).
  - inversion L; subst. destruct H1 as [LP LT]. cbn [fst snd] in LP, LT. cbn [exec call_meets_end].
    destruct (C53_calculate p t c w LP LT W) as [(r & w' & -> & W')|M]; [left|now right]. cbn [omap bind fst snd]. do 2 eexists. split; [reflexivity|exact W'].
  - unfold legit_call in L. cbn [keys_of] in L. cbn [exec call_meets_end].
    destruct ls as [|m0 ls0]; [left; do 2 eexists; split; [reflexivity|exact W]|]. set (ls := m0 :: ls0) in *.
    assert (LP : legit_p p). { rewrite Forall_forall in L. apply (L (p, m0, c)). now left. }
    assert (LT : Forall legit_t ls). { apply Forall_forall. intros m M. rewrite Forall_forall in L. apply (L (p, m, c)). apply in_map_iff. exists m. split; [reflexivity|exact M]. }
    destruct (C53_layers p ps ls c w LP LT W) as [(r & w' & -> & W')|M]; [left|now right]. cbn [omap bind fst snd]. do 2 eexists. split; [reflexivity|exact W'].
Qed.
Print Assumptions C53_call.

(** any sequence of calls either ends with defined results, or one of its calls meets the end of the
    tables in the state left by the calls before it *)
Theorem C53_history h : Forall legit_call h -> forall w, world_ok w ->
  (exists w', exec_all junk h w = Ok w' /\ world_ok w') \/
  (exists before q after w1, h = before ++ q :: after /\ exec_all junk before w = Ok w1 /\ call_meets_end q w1).
Proof.
  induction h as [|q h IH]; intros L w W; [left; exists w; split; [reflexivity|exact W]|]. inversion L; subst.
  destruct (C53_call q w H1 W) as [(r & w1 & E & W1)|M].
  2:{ right. exists [], q, h, w. split; [reflexivity|]. split; [reflexivity|exact M]. }
  assert (S : forall h', exec_all junk (q :: h') w = exec_all junk h' w1) by (intros h'; unfold exec_all; cbn [ofold]; rewrite E; reflexivity).
  destruct (IH H2 w1 W1) as [(w2 & E2 & W2)|(b & q' & a & w2 & -> & E2 & M)].
  - left. exists w2. rewrite S. split; assumption.
  - right. exists (q :: b), q', a, w2. split; [reflexivity|]. rewrite S. split; assumption.
Qed.
Print Assumptions C53_history.

(** sequences without calculate, from the fresh library: always defined *)
Theorem C53_no_calculate h : Forall legit_call h -> Forall simple_call h -> exists w, exec_all junk h world0 = Ok w /\ world_ok w.
Proof. intros L S. apply simple_history_total; [exact S|exact L|apply world_ok0]. Qed.
Print Assumptions C53_no_calculate.
End Calls.

(** ** A concrete case: carbon ions crossing a thin layer of water, as the second call after a reset;
    the alternative of C53_call does not occur *)
Example C53_case : exists T th, 1 / 27 < T < 1 /\ 0 < th /\
  let h := [CReset; CCalculate (carbon T) (water th) conf] in Forall legit_call h /\
  ~ call_meets_end junk0 (CCalculate (carbon T) (water th) conf) world0 /\ exists w, exec_all junk0 h world0 = Ok w.
Proof.
  destruct passing_case as (T & th & BT & TP & H). exists T, th. split; [exact BT|]. split; [exact TP|].
  destruct (H (w_default world0)) as (r & w' & E & EO). change (with_default (w_default world0) world0) with (world0 (F:=R)) in E.
  cbv zeta. split; [|split].
  - apply Forall_cons; [apply Forall_nil|]. apply Forall_cons; [|apply Forall_nil]. apply Forall_cons; [split; [apply carbon_legit|apply water_legit]|apply Forall_nil].
  - intros (Eo & wx & x & HE & B & J).
    destruct (C12_agrees junk0 _ _ _ _ _ _ E) as (wy & _ & _ & _ & HE').
    { apply not_true_is_false. rewrite too_low_R. cbn [pT carbon]. lra. }
    assert (Eo = r_Eout r).
    { rewrite HE in HE'. cbn [m_th water] in HE'. assert (X : Ok (Eo, wx) = Ok (r_Eout r, wy)); [|congruence]. apply HE'. rewrite lit0'. numR. apply Reqb_false. lra. }
    subst Eo. unfold between in B. cbn [carbon pT] in B. unfold just_below_table_end in J. pose proof eps_small. pose proof table_end_high. lra.
  - exists w'. unfold exec_all. cbn [ofold exec omap bind snd]. change (data_reset world0) with (world0 (F:=R)). rewrite E. reflexivity.
Qed.
