(** * Properties C12-C17: single layers and stacks of layers *)
From Coq Require Import ZArith Reals List Bool Lra Lia.
From Verif Require Import Num NumR Structures EnergyTable Spline Integrator Calculations NucData
  Reactions Storage Catima CacheProofs CacheFresh History KeyEq ApiCache BoundsProofs TotalProofs
  ApiTotal Cases EnergyOutProofs LayerProofs GridProofs InterpProofs.
Import ListNotations.
Local Open Scope R_scope.

(** ** C12 *)
Lemma lit0 : (lit 0.0 : R) = 0. Proof. numR. dec_norm. lra. Qed.
Lemma lit0' : (lit 0 : R) = 0. Proof. numR. dec_norm. lra. Qed.
Lemma lit1 : (lit 1.0 : R) = 1. Proof. numR. dec_norm. lra. Qed.
Lemma eps_R : numeric_epsilon = 10 / 4503599627370496 :> R.
Proof. unfold numeric_epsilon. numR. dec_norm. lra. Qed.

Lemma too_low_R T : too_low T = true <-> T < 1 / 1000 - 10 / 4503599627370496.
Proof.
  unfold too_low. rewrite Ezero_R, eps_R, andb_true_iff. numR. rewrite !Rltb_true. lra.
Qed.

(** below the threshold: the default result, nothing looked up *)
Theorem C12_low_energy (junk : nat -> R * R) p t c w :
  pT p < 1 / 1000 - 10 / 4503599627370496 ->
  exists r, calculate junk p t c w = Ok (r, w) /\
    r_Ein r = 0 /\ r_Eout r = 0 /\ r_Eloss r = 0 /\ r_range r = 0 /\ r_dEdxi r = 0 /\ r_dEdxo r = 0 /\
    r_sigma_E r = 0 /\ r_sigma_a r = 0 /\ r_sigma_r r = 0 /\ r_sigma_x r = 0 /\ r_cov r = 0 /\
    r_tof r = 0 /\ r_sp r = 1.
Proof.
  intros H. apply too_low_R in H. exists Result0. unfold calculate. fold (too_low (pT p)). rewrite H.
  split; [reflexivity|].
  unfold Result0. cbn [r_Ein r_Eout r_Eloss r_range r_dEdxi r_dEdxo r_sigma_E r_sigma_a r_sigma_r
    r_sigma_x r_cov r_tof r_sp]. rewrite lit0, lit1. auto 20.
Qed.
Print Assumptions C12_low_energy.

Theorem C12_no_thickness (junk : nat -> R * R) p t c w r w' :
  1 / 1000 - 10 / 4503599627370496 <= pT p -> m_th t = 0 ->
  calculate junk p t c w = Ok (r, w') ->
  r_Ein r = pT p /\ r_Eout r = pT p /\ r_Eloss r = 0 /\ r_dEdxo r = r_dEdxi r /\ r_sigma_E r = 0 /\
  r_sigma_a r = 0 /\ r_sigma_x r = 0 /\ r_cov r = 0 /\ r_tof r = 0 /\ r_sp r = 1.
Proof.
  intros HT H0 H. apply calculate_inv in H.
  destruct H as [(L & _)|(_ & d & w1 & rg & dr & sv & _ & _ & _ & _ & [(_ & _ & ->)|(B & _)])].
  - apply too_low_R in L. lra.
  - cbn [r_Ein r_Eout r_Eloss r_range r_dEdxi r_dEdxo r_sigma_E r_sigma_a r_sigma_r
      r_sigma_x r_cov r_tof r_sp]. rewrite lit0, lit1. auto 20.
  - exfalso. rewrite lit0', H0 in B. numR. apply Reqb_false in B. lra.
Qed.
Print Assumptions C12_no_thickness.

Theorem C12_balance (junk : nat -> R * R) p t c w r w' :
  1 / 1000 - 10 / 4503599627370496 <= pT p -> m_th t <> 0 ->
  calculate junk p t c w = Ok (r, w') ->
  r_Ein r = pT p /\ r_Eloss r = (r_Ein r - r_Eout r) * pA p /\
  (r_Eout r < 1 / 1000 -> r_dEdxo r = 0 /\ r_sigma_a r = 0 /\ r_sigma_E r = 0 /\ r_tof r = 0).
Proof.
  intros HT H0 H. apply calculate_inv in H.
  destruct H as [(L & _)|(_ & d & w1 & rg & dr & sv & _ & _ & _ & _ &
    [(B & _)|(_ & Eout & dEdxo & sE & sa & tof & w2 & vx & w3 & cov & w4 & sp & _ & X & _ & _ & _ & ->)])].
  - apply too_low_R in L. lra.
  - exfalso. rewrite lit0' in B. numR. apply Reqb_true in B. lra.
  - cbn [r_Ein r_Eout r_Eloss r_dEdxo r_sigma_E r_sigma_a r_tof]. numR.
    split; [reflexivity|]. split; [reflexivity|]. intros L.
    destruct X as [(_ & -> & -> & -> & -> & _)|(X & _)]; [rewrite lit0; auto|].
    exfalso. rewrite Ezero_R in X. numR. apply Rltb_false in X. lra.
Qed.
Print Assumptions C12_balance.

(** the fields that have a function of their own equal what that function returns (any arithmetic) *)
Theorem C12_agrees {F} {N : Num F} (junk : nat -> F * F) p t c w r w' :
  calculate junk p t c w = Ok (r, w') -> too_low (pT p) = false ->
  exists w1, range junk p t c w = Ok (r_range r, w1) /\
    dedx_from_range junk p t c w = Ok (r_dEdxi r, w1) /\
    range_straggling junk p (pT p) t c w = Ok (r_sigma_r r, w1) /\
    (feqb (m_th t) (lit 0) = false -> energy_out junk p t c w = Ok (r_Eout r, w1)).
Proof.
  intros H TL. apply calculate_inv in H.
  destruct H as [(L & _)|(_ & d & w1 & rg & dr & sv & LK & RG & DR & SV & H)]; [congruence|].
  exists w1. unfold range, dedx_from_range, range_straggling, energy_out. rewrite LK. cbn [bind].
  rewrite RG, DR, SV. cbn [bind].
  destruct H as [(B & _ & ->)|(B & Eout & dEdxo & sE & sa & tof & w2 & vx & w3 & cov & w4 & sp & EO & _ & _ & _ & _ & ->)];
    cbn [r_range r_dEdxi r_sigma_r r_Eout].
  - do 3 (split; [reflexivity|]). congruence.
  - do 3 (split; [reflexivity|]). intros _. rewrite EO. reflexivity.
Qed.
Print Assumptions C12_agrees.

(** 300 MeV/u carbon: without thickness, and stopped in water *)
Lemma stopping_case T : 1 / 1000 <= T -> below_top T ->
  exists th r w', 0 < th /\ calculate junk0 (carbon T) (water th) conf world0 = Ok (r, w') /\ r_Eout r = 0.
Proof.
  intros HT HB.
  destruct (lookup_total junk0 (carbon T) (water 1) conf world0) as (d & w1 & L & OD & OW & _);
    auto using world_ok0 with cases.
  destruct (dp_range_ok d T OD) as (rg & RG).
  set (th := Rmax rg 1).
  assert (L' : exists d' w', lookup junk0 (carbon T) (water th) conf world0 = Ok (d', w') /\
               dp_range_spline d' = dp_range_spline d).
  { pose proof (lookup_T junk0 world0 (carbon T) T th (water 1) conf wf_world0) as S.
    rewrite L in S. change (at_T (carbon T) T) with (carbon T) in S.
    change (set_thickness (water 1) th) with (water th) in S.
    destruct (lookup junk0 (carbon T) (water th) conf world0) as [[d' w']|]; [|contradiction].
    exists d', w'. split; auto. cbn [osim fst] in S. destruct S as (_ & _ & _ & E & _). auto. }
  destruct L' as (d' & w' & L' & ED).
  assert (EO : energy_out_sp (dp_range_spline d') T th = Ok 0).
  { unfold energy_out_sp, energy_out_fn. rewrite ED, RG. cbn [bind].
    destruct (dp_range_d_ok d T OD) as (dr & DR). rewrite DR. cbn [bind]. cbv zeta. numR.
    destruct (Rleb_spec rg th) as [X|X]; [|exfalso; apply X; apply Rmax_l]. now rewrite <- lit0. }
  destruct (calculate_good junk0 (carbon T) (water th) conf world0) as (r & w2 & H & _);
    auto using world_ok0 with cases.
  { intros e we HE. unfold energy_out in HE. rewrite L' in HE. cbn [bind pT carbon m_th water] in HE.
    rewrite EO in HE. cbn [bind] in HE. injection HE as <- _. unfold below_top in *. lra. }
  exists th, r, w2. assert (TP : 0 < th) by (unfold th; pose proof (Rmax_r rg 1); lra).
  split; [assumption|]. split; [assumption|].
  destruct (C12_agrees junk0 _ _ _ _ _ _ H) as (wx & _ & _ & _ & HE).
  - apply not_true_is_false. rewrite too_low_R. cbn [pT carbon]. lra.
  - unfold energy_out in HE. rewrite L' in HE. cbn [bind pT carbon m_th water] in HE.
    rewrite EO in HE. cbn [bind] in HE.
    assert (X : Ok (0, w') = Ok (r_Eout r, wx)).
    { apply HE. rewrite lit0'. numR. apply Reqb_false. lra. }
    congruence.
Qed.

Lemma top_above T : T <= 60000 -> below_top T.
Proof.
  intros H. unfold below_top. pose proof eps_small. unfold ls_glast. rewrite glast_val by (lia || lra).
  assert (1 + 1 <= exp 1) by (apply exp_ineq1_le).
  assert (E : exp 16 = exp 1 ^ 16).
  { rewrite <- Rpower_pow by apply exp_pos. unfold Rpower. rewrite ln_exp. f_equal. simpl. lra. }
  assert (2 ^ 16 <= exp 1 ^ 16) by (apply pow_incr; lra).
  assert (exp 16 < exp (LN10_ * 7)).
  { apply exp_increasing. unfold LN10_; numR; dec_norm; lra. }
  simpl in H2. lra.
Qed.

Example C12_case_stopped : exists th r w', 0 < th /\
  calculate junk0 (carbon 300) (water th) conf world0 = Ok (r, w') /\ r_Eout r = 0.
Proof. apply stopping_case; [lra|apply top_above; lra]. Qed.

Example C12_case_no_thickness : exists r w',
  calculate junk0 (carbon 300) (water 0) conf world0 = Ok (r, w').
Proof.
  unfold calculate. fold (too_low (pT (carbon 300))).
  assert (TL : too_low (pT (carbon 300)) = false).
  { apply not_true_is_false. rewrite too_low_R. cbn [pT carbon]. lra. }
  rewrite TL.
  destruct (lookup_total junk0 (carbon 300) (water 0) conf world0) as (d & w1 & L & OD & OW & _);
    auto using world_ok0 with cases.
  rewrite L. cbn [bind pT carbon].
  destruct (dp_range_ok d 300 OD) as (rg & RG). rewrite RG. cbn [bind].
  destruct (dp_range_d_ok d 300 OD) as (dr & DR). rewrite DR. cbn [bind].
  destruct (dp_rs_ok d 300 OD) as (sv & SV). rewrite SV. cbn [bind]. cbv zeta.
  cbn [m_th water]. rewrite lit0'. numR. destruct (Reqb_spec 0 0); [|lra].
  eexists. eexists. reflexivity.
Qed.

(** ** C13 *)

(** the state with another default config *)
Definition with_default {F} (cd : Config F) (w : world F) : world F :=
  mkW (w_slots w) (w_index w) cd (w_junk w).
Definition lift {F A} (cd : Config F) (x : outcome (A * world F)) : outcome (A * world F) :=
  omap (fun aw => (fst aw, with_default cd (snd aw))) x.

Section Default.
  Context {F : Type} {N : Num F}.
  Variable junk : nat -> F * F.
  Variable cd : Config F.

  Lemma lift_bind {A B} (x : outcome (A * world F)) (f : A * world F -> outcome (B * world F)) :
    (forall a w, f (a, with_default cd w) = lift cd (f (a, w))) ->
    bind (lift cd x) f = lift cd (bind x f).
  Proof. intros H. destruct x as [[a w]|]; cbn; auto. Qed.
  Lemma lift_pure {A B} (x : outcome A) (w : world F) (f : A -> B) :
    (r <- x ;; Ok (f r, with_default cd w)) = lift cd (r <- x ;; Ok (f r, w)).
  Proof. destruct x; reflexivity. Qed.

  Lemma lookup_default p t c w : lookup junk p t c (with_default cd w) = lift cd (lookup junk p t c w).
  Proof.
    unfold lookup, data_get, data_add, with_default. cbn [w_slots w_index w_junk w_default].
    destruct (find_slot (key_match p t c) (w_slots w)) as [i|].
    - cbn [bind]. unfold slot. cbn [w_slots]. destruct (nth_error (w_slots w) i); reflexivity.
    - destruct (find_slot _ (w_slots w)).
      + cbn [bind w_index]. destruct (w_index w) as [|k] eqn:WI; [reflexivity|]. cbn [bind].
        unfold slot. cbn [w_slots]. destruct (nth_error (w_slots w) k); [|reflexivity].
        unfold lift. cbn [bind omap fst snd]. unfold with_default. rewrite WI. reflexivity.
      + cbv zeta. destruct (calculate_DataPoint p t c) as [d|]; [|reflexivity]. cbn [bind].
        destruct (with_splines junk (w_junk w) d) as [d'|]; [|reflexivity]. cbn [bind].
        destruct (_ <? _)%nat; [|reflexivity]. cbn [bind w_index]. unfold slot. cbn [w_slots].
        destruct (nth_error (set_slot _ _ _) _); reflexivity.
  Qed.

  Lemma angular_variance_default p t c o w :
    angular_variance junk p t c o (with_default cd w) = lift cd (angular_variance junk p t c o w).
  Proof.
    unfold angular_variance. rewrite lookup_default. apply lift_bind. intros d w'. apply (lift_pure _ _ (fun r => r)).
  Qed.
  Lemma angular_straggling_default p t c w :
    angular_straggling junk p t c (with_default cd w) = lift cd (angular_straggling junk p t c w).
  Proof.
    unfold angular_straggling. rewrite angular_variance_default. apply lift_bind. intros d w'. reflexivity.
  Qed.
  Lemma nonreaction_default p t c w :
    nonreaction_rate junk p t c (with_default cd w) = lift cd (nonreaction_rate junk p t c w).
  Proof.
    unfold nonreaction_rate. destruct (fltb (pT p) emin_reaction); [reflexivity|].
    destruct (fleb (m_th t) (lit 0.0)); [reflexivity|].
    destruct (cast (flround (pA p))); [|reflexivity]. cbn [bind].
    destruct (cast (flround (pZ p))); [|reflexivity]. cbn [bind].
    rewrite lookup_default. apply lift_bind. intros d w'. apply (lift_pure _ _ (fun r => r)).
  Qed.

  Lemma lift_ok {A} (x : outcome (A * world F)) a w : lift cd x = Ok (a, w) ->
    exists w', x = Ok (a, w') /\ w = with_default cd w'.
  Proof.
    destruct x as [[b w']|]; cbn; [|discriminate]. intros H. injection H as <- <-. eauto.
  Qed.

  Definition same_but_tof (r1 r2 : Result F) : Prop :=
    r_Ein r1 = r_Ein r2 /\ r_Eout r1 = r_Eout r2 /\ r_Eloss r1 = r_Eloss r2 /\ r_range r1 = r_range r2 /\
    r_dEdxi r1 = r_dEdxi r2 /\ r_dEdxo r1 = r_dEdxo r2 /\ r_sigma_E r1 = r_sigma_E r2 /\
    r_sigma_a r1 = r_sigma_a r2 /\ r_sigma_r r1 = r_sigma_r r2 /\ r_sigma_x r1 = r_sigma_x r2 /\
    r_cov r1 = r_cov r2 /\ r_sp r1 = r_sp r2.
End Default.

(** Changing only the library-wide default config changes no field but tof (any arithmetic). *)
Theorem C13_default_config {F} {N : Num F} (junk : nat -> F * F) p t c cd w r1 w1 r2 w2 :
  calculate junk p t c w = Ok (r1, w1) ->
  calculate junk p t c (with_default cd w) = Ok (r2, w2) ->
  same_but_tof r1 r2 /\ w2 = with_default cd w1.
Proof.
  intros H1 H2. apply calculate_inv in H1. apply calculate_inv in H2.
  destruct H1 as [(L1 & -> & ->)|(L1 & d & wa & rg & dr & sv & LK & RG & DR & SV & H1)];
    destruct H2 as [(L2 & -> & ->)|(L2 & d2 & wb & rg2 & dr2 & sv2 & LK2 & RG2 & DR2 & SV2 & H2)];
    try congruence.
  - unfold same_but_tof. auto 20.
  - rewrite lookup_default in LK2. apply lift_ok in LK2. destruct LK2 as (wa' & LK2 & ->).
    rewrite LK in LK2. injection LK2 as <- <-.
    rewrite RG in RG2. injection RG2 as <-. rewrite DR in DR2. injection DR2 as <-.
    rewrite SV in SV2. injection SV2 as <-.
    destruct H1 as [(B1 & -> & ->)|(B1 & Eout & dEdxo & sE & sa & tof & w2' & vx & w3 & cov & w4 & sp & EO & X & AV & AC & NR & ->)];
    destruct H2 as [(B2 & -> & ->)|(B2 & Eout2 & dEdxo2 & sE2 & sa2 & tof2 & w22 & vx2 & w32 & cov2 & w42 & sp2 & EO2 & X2 & AV2 & AC2 & NR2 & ->)];
      try congruence.
    + unfold same_but_tof; cbn. auto 20.
    + rewrite EO in EO2. injection EO2 as <-.
      assert (S : dEdxo = dEdxo2 /\ sE = sE2 /\ sa = sa2 /\ w22 = with_default cd w2').
      { destruct X as [(C1 & -> & -> & -> & -> & ->)|(C1 & do1 & sa1 & DO & -> & SE & SA & SB & TOF)];
        destruct X2 as [(C2 & -> & -> & -> & -> & ->)|(C2 & do2 & sa12 & DO2 & -> & SE2 & SA2 & SB2 & TOF2)];
          try congruence; auto.
        rewrite DO in DO2. injection DO2 as <-. rewrite SE in SE2. injection SE2 as <-.
        rewrite SA in SA2. injection SA2 as <-. do 2 (split; [reflexivity|]).
        destruct (negb (c_scat c =? sc_atima)%Z && fltb (m_th t) rg).
        - rewrite angular_straggling_default in SB2. apply lift_ok in SB2.
          destruct SB2 as (w' & SB2 & ->). rewrite SB in SB2. injection SB2 as <- <-. auto.
        - injection SB as <- <-. injection SB2 as <- <-. auto. }
      destruct S as (<- & <- & <- & ->).
      rewrite angular_variance_default in AV2. apply lift_ok in AV2. destruct AV2 as (w' & AV2 & ->).
      rewrite AV in AV2. injection AV2 as <- <-.
      rewrite angular_variance_default in AC2. apply lift_ok in AC2. destruct AC2 as (w' & AC2 & ->).
      rewrite AC in AC2. injection AC2 as <- <-.
      rewrite nonreaction_default in NR2. apply lift_ok in NR2. destruct NR2 as (w' & NR2 & ->).
      rewrite NR in NR2. injection NR2 as <- <-.
      unfold same_but_tof; cbn. auto 20.
Qed.
Print Assumptions C13_default_config.

Section Keeps.
  Context {F : Type} {N : Num F}.
  Variable junk : nat -> F * F.
  Lemma lookup_keeps p t c w d w' : lookup junk p t c w = Ok (d, w') -> w_default w' = w_default w.
  Proof.
    intros H. assert (E : with_default (w_default w) w = w) by (destruct w; reflexivity).
    pose proof (lookup_default junk (w_default w) p t c w) as L. rewrite E, H in L.
    injection L as L. rewrite L. reflexivity.
  Qed.
  Lemma angular_straggling_keeps p t c w r w' :
    angular_straggling junk p t c w = Ok (r, w') -> w_default w' = w_default w.
  Proof.
    intros H. assert (E : with_default (w_default w) w = w) by (destruct w; reflexivity).
    pose proof (angular_straggling_default junk (w_default w) p t c w) as L. rewrite E, H in L.
    injection L as L. rewrite L. reflexivity.
  Qed.
End Keeps.

(** tof is the time of flight computed with the default config, whatever config was passed *)
Theorem C13_tof (junk : nat -> R * R) p t c w r w' :
  1 / 1000 - 10 / 4503599627370496 <= pT p -> m_th t <> 0 ->
  calculate junk p t c w = Ok (r, w') ->
  if Rlt_dec (r_Eout r) (1 / 1000) then r_tof r = 0
  else calculate_tof_from_E p (r_Eout r) t (w_default w) = Ok (r_tof r).
Proof.
  intros HT H0 H. apply calculate_inv in H.
  destruct H as [(L & _)|(_ & d & w1 & rg & dr & sv & LK & _ & _ & _ &
    [(B & _)|(_ & Eout & dEdxo & sE & sa & tof & w2 & vx & w3 & cov & w4 & sp & _ & X & _ & _ & _ & ->)])].
  - apply too_low_R in L. lra.
  - exfalso. rewrite lit0' in B. numR. apply Reqb_true in B. lra.
  - cbn [r_Eout r_tof]. unfold exit_part in X. rewrite Ezero_R in X. numR.
    destruct X as [(C & _ & _ & _ & -> & _)|(C & do_ & sa1 & _ & _ & _ & _ & SB & TOF)].
    + apply Rltb_true in C. destruct (Rlt_dec Eout (1 / 1000)); [exact lit0|lra].
    + apply Rltb_false in C. destruct (Rlt_dec Eout (1 / 1000)); [lra|].
      assert (ED : w_default w2 = w_default w).
      { apply lookup_keeps in LK. rewrite <- LK. destruct (negb _ && _).
        - now apply angular_straggling_keeps in SB.
        - injection SB as _ <-. reflexivity. }
      rewrite <- ED. exact TOF.
Qed.
Print Assumptions C13_tof.

(** hence two configs that give the same outgoing energy give the same tof *)
Theorem C13_tof_ignores_config (junk : nat -> R * R) p t c1 c2 w1 w2 r1 r2 w1' w2' :
  1 / 1000 - 10 / 4503599627370496 <= pT p -> m_th t <> 0 -> w_default w1 = w_default w2 ->
  calculate junk p t c1 w1 = Ok (r1, w1') -> calculate junk p t c2 w2 = Ok (r2, w2') ->
  r_Eout r1 = r_Eout r2 -> r_tof r1 = r_tof r2.
Proof.
  intros HT H0 ED H1 H2 EE. pose proof (C13_tof _ _ _ _ _ _ _ HT H0 H1) as T1.
  pose proof (C13_tof _ _ _ _ _ _ _ HT H0 H2) as T2. rewrite <- EE, <- ED in T2.
  destruct (Rlt_dec (r_Eout r1) (1 / 1000)); congruence.
Qed.
Print Assumptions C13_tof_ignores_config.

(** ** C14 *)

(** one result per layer, each being calculate at the outgoing energy of the layer before *)
Theorem C14_in_order {F} {N : Num F} (junk : nat -> F * F) p ps ms c w mr w' :
  calculate_layers junk p ps ms c w = Ok (mr, w') ->
  length (mr_results mr) = length ms /\
  forall i m, nth_error ms i = Some m ->
    exists r e wi wi', nth_error (mr_results mr) i = Some r /\
      (i = 0%nat -> e = pT p) /\
      (forall j r', i = S j -> nth_error (mr_results mr) j = Some r' -> e = r_Eout r') /\
      calculate junk (at_T p e) m c wi = Ok (r, wi').
Proof.
  unfold calculate_layers. intros H. apply bind_ok in H. destruct H as ([[[rs e'] tot] w1] & H & E).
  injection E as <- <-. cbn [mr_results]. apply layers_stack in H. destruct H as (H & _).
  split; [eapply stack_length; eauto|]. intros i m Hi.
  destruct (stack_nth junk p c _ _ _ _ _ _ H i m Hi) as (r & e & wi & wi' & Hr & He & HC).
  exists r, e, wi, wi'. split; [assumption|]. split; [|split; [|assumption]].
  - intros ->. assumption.
  - intros j r' -> HJ. rewrite HJ in He. assumption.
Qed.
Print Assumptions C14_in_order.

(** a stack can be processed in two parts, and the first results depend on the first layers only *)
Theorem C14_append {F} {N : Num F} (junk : nat -> F * F) p ps ps' l1 l2 c w mr w' :
  calculate_layers junk p ps (l1 ++ l2) c w = Ok (mr, w') ->
  exists m1 w1 m2,
    calculate_layers junk p ps l1 c w = Ok (m1, w1) /\
    calculate_layers junk
      (at_T p (match mr_results m1 with [] => pT p | _ => r_Eout (last (mr_results m1) Result0) end))
      ps' l2 c w1 = Ok (m2, w') /\
    mr_results mr = mr_results m1 ++ mr_results m2.
Proof.
  unfold calculate_layers. intros H. apply bind_ok in H. destruct H as ([[[rs e'] tot] w2] & H & E).
  injection E as <- <-. cbn [mr_results]. apply layers_stack in H. destruct H as (H & _).
  apply stack_app in H. destruct H as (rs1 & rs2 & e1 & w1 & -> & S1 & S2).
  pose proof (stack_exit junk p c _ _ _ _ _ _ S1) as EX.
  set (p2 := at_T p e1).
  assert (S2' : stack junk p2 c w1 e1 l2 rs2 e' w2).
  { unfold p2. now apply stack_at. }
  destruct (layers_stack junk p c l1 w (pT p) (total0 p ps) rs1 e1 (totals l1 rs1 (total0 p ps)) w1)
    as [_ L1]. rewrite L1 by auto. cbn [bind].
  exists (mkMulti rs1 (total_finish e1 (totals l1 rs1 (total0 p ps)))), w1. cbn [mr_results].
  rewrite <- EX. fold p2.
  destruct (layers_stack junk p2 c l2 w1 (pT p2) (total0 p2 ps') rs2 e' (totals l2 rs2 (total0 p2 ps')) w2)
    as [_ L2]. rewrite L2 by (split; [exact S2'|reflexivity]). cbn [bind].
  eexists. split; [reflexivity|]. split; [reflexivity|]. reflexivity.
Qed.
Print Assumptions C14_append.

(** and conversely *)
Theorem C14_join {F} {N : Num F} (junk : nat -> F * F) p ps ps' l1 l2 c w m1 w1 m2 w' :
  calculate_layers junk p ps l1 c w = Ok (m1, w1) ->
  calculate_layers junk
    (at_T p (match mr_results m1 with [] => pT p | _ => r_Eout (last (mr_results m1) Result0) end))
    ps' l2 c w1 = Ok (m2, w') ->
  exists mr, calculate_layers junk p ps (l1 ++ l2) c w = Ok (mr, w') /\
             mr_results mr = mr_results m1 ++ mr_results m2.
Proof.
  unfold calculate_layers. intros H1 H2.
  apply bind_ok in H1. destruct H1 as ([[[rs1 e1] tot1] wa] & H1 & E1). injection E1 as <- <-.
  apply bind_ok in H2. destruct H2 as ([[[rs2 e2] tot2] wb] & H2 & E2). injection E2 as <- <-.
  cbn [mr_results] in *. apply layers_stack in H1. destruct H1 as (S1 & _).
  apply layers_stack in H2. destruct H2 as (S2 & _).
  rewrite <- (stack_exit junk p c _ _ _ _ _ _ S1) in S2. cbn [pT at_T] in S2.
  assert (S2' : stack junk p c wa e1 l2 rs2 e2 wb).
  { now apply stack_at in S2. }
  destruct (layers_stack junk p c (l1 ++ l2) w (pT p) (total0 p ps) (rs1 ++ rs2) e2
              (totals (l1 ++ l2) (rs1 ++ rs2) (total0 p ps)) wb) as [_ L].
  rewrite L.
  - cbn [bind]. eexists. split; reflexivity.
  - split; [|reflexivity]. apply stack_app. exists rs1, rs2, e1, wa. auto.
Qed.
Print Assumptions C14_join.

Theorem C14_prefix {F} {N : Num F} (junk : nat -> F * F) p ps l1 l2 l3 c w m2 w2 m3 w3 :
  calculate_layers junk p ps (l1 ++ l2) c w = Ok (m2, w2) ->
  calculate_layers junk p ps (l1 ++ l3) c w = Ok (m3, w3) ->
  firstn (length l1) (mr_results m2) = firstn (length l1) (mr_results m3).
Proof.
  unfold calculate_layers. intros H1 H2.
  apply bind_ok in H1. destruct H1 as ([[[rs1 e1] tot1] wa] & H1 & E1). injection E1 as <- <-.
  apply bind_ok in H2. destruct H2 as ([[[rs2 e2] tot2] wb] & H2 & E2). injection E2 as <- <-.
  cbn [mr_results]. apply layers_stack in H1. destruct H1 as (S1 & _).
  apply layers_stack in H2. destruct H2 as (S2 & _).
  apply stack_app in S1. destruct S1 as (ra & rb & ea & wx & -> & A1 & A2).
  apply stack_app in S2. destruct S2 as (rc & rd & ec & wy & -> & B1 & B2).
  destruct (stack_det junk p c _ _ _ _ _ _ _ _ _ A1 B1) as (<- & _ & _).
  rewrite <- (stack_length junk p c _ _ _ _ _ _ A1).
  rewrite !firstn_app, !firstn_all, !Nat.sub_diag. reflexivity.
Qed.
Print Assumptions C14_prefix.

(** ** C15 *)
Definition Rsum (l : list R) : R := fold_right Rplus 0 l.

Lemma totals_Eloss : forall ms rs t, length rs = length ms ->
  r_Eloss (totals ms rs t) = r_Eloss t + Rsum (map r_Eloss rs) /\
  r_tof (totals ms rs t) = r_tof t + Rsum (map r_tof rs) /\
  r_Ein (totals ms rs t) = r_Ein t /\
  r_Eout (totals ms rs t) = match rs with [] => r_Eout t | _ => r_Eout (last rs Result0) end.
Proof.
  unfold totals. induction ms as [|m ms IH]; intros [|r rs] t H; try discriminate.
  - cbn. repeat split; ring.
  - cbn [combine fold_left fst snd]. destruct (IH rs (layer_update m r t)) as (A & B & C & D); [now injection H|].
    rewrite A, B, C, D. unfold Rsum. cbn [map fold_right layer_update r_Eloss r_tof r_Ein r_Eout]. numR.
    split; [ring|]. split; [ring|]. split; [reflexivity|]. destruct rs; reflexivity.
Qed.

Theorem C15_sums (junk : nat -> R * R) p ps ms c w mr w' :
  calculate_layers junk p ps ms c w = Ok (mr, w') ->
  r_Ein (mr_total mr) = pT p /\
  r_Eloss (mr_total mr) = Rsum (map r_Eloss (mr_results mr)) /\
  r_tof (mr_total mr) = Rsum (map r_tof (mr_results mr)) /\
  r_Eout (mr_total mr) =
    match mr_results mr with [] => 0 | _ => r_Eout (last (mr_results mr) Result0) end.
Proof.
  unfold calculate_layers. intros H. apply bind_ok in H. destruct H as ([[[rs e'] tot] w1] & H & E).
  injection E as <- <-. cbn [mr_results mr_total]. apply layers_stack in H. destruct H as (H & ->).
  destruct (totals_Eloss ms rs (total0 p ps)) as (A & B & C & D); [eapply stack_length; eauto|].
  unfold total_finish. destruct (fltb Ezero e'); cbn [r_Ein r_Eloss r_tof r_Eout];
    rewrite A, B, C, D; cbn [total0 r_Eloss r_tof r_Ein r_Eout]; rewrite lit0; repeat split; ring.
Qed.
Print Assumptions C15_sums.

(** the energies with which the layers are entered *)
Definition entries (T : R) (rs : list (Result R)) : list R := T :: map r_Eout rs.

Theorem C15_balance (junk : nat -> R * R) p ps ms c w mr w' :
  calculate_layers junk p ps ms c w = Ok (mr, w') -> ms <> [] ->
  Forall (fun e => e = 0 \/ 1 / 1000 - 10 / 4503599627370496 <= e)
         (firstn (length ms) (entries (pT p) (mr_results mr))) ->
  r_Eloss (mr_total mr) = pA p * (r_Ein (mr_total mr) - r_Eout (mr_total mr)).
Proof.
  intros H NE HE. destruct (C15_sums _ _ _ _ _ _ _ _ H) as (-> & -> & _ & ->).
  unfold calculate_layers in H. apply bind_ok in H. destruct H as ([[[rs e'] tot] w1] & H & E).
  injection E as <- <-. cbn [mr_results] in *. apply layers_stack in H. destruct H as (H & _).
  assert (X : forall e, stack junk p c w e ms rs e' w1 ->
    Forall (fun e => e = 0 \/ 1 / 1000 - 10 / 4503599627370496 <= e) (firstn (length ms) (entries e rs)) ->
    Rsum (map r_Eloss rs) = pA p * (e - e')).
  { clear. revert w rs e' w1. induction ms as [|m ms IH]; intros w rs e' w1 e S HE; inversion S; subst.
    - cbn. ring.
    - cbn [length entries firstn map] in HE. inversion HE as [|? ? He HE']; subst.
      match goal with HC : calculate _ _ _ _ _ = _, HS : stack _ _ _ _ _ ms _ _ _ |- _ =>
        rename HC into HC'; rename HS into HS' end.
      cbn [map Rsum fold_right]. change (fold_right Rplus 0 (map r_Eloss rs0)) with (Rsum (map r_Eloss rs0)).
      rewrite (IH _ _ _ _ _ HS' HE').
      assert (EL : r_Eloss r = pA p * (e - r_Eout r)).
      { destruct He as [->|He].
        - destruct (C12_low_energy junk (at_T p 0) m c w) as (r0 & HC & _ & E1 & E2 & _).
          { cbn [pT at_T]. lra. }
          rewrite HC in HC'. injection HC' as <- _. rewrite E1, E2. ring.
        - destruct (Req_EM_T (m_th m) 0) as [Z|Z].
          + destruct (C12_no_thickness junk (at_T p e) m c w r w2) as (_ & E1 & E2 & _); auto.
            cbn [pT at_T] in E1. rewrite E1, E2. ring.
          + destruct (C12_balance junk (at_T p e) m c w r w2) as (E1 & E2 & _); auto.
            cbn [pT at_T pA] in E1, E2. rewrite E2, E1. ring. }
      rewrite EL. ring. }
  rewrite (X _ H HE). rewrite (stack_exit junk p c _ _ _ _ _ _ H).
  assert (length rs = length ms) by (eapply stack_length; eauto).
  destruct rs; [destruct ms; [contradiction|discriminate]|reflexivity].
Qed.
Print Assumptions C15_balance.

(** without layers: Ein is the projectile energy, Eout 0, no energy lost *)
Theorem C15_empty (junk : nat -> R * R) p ps c w :
  exists mr, calculate_layers junk p ps [] c w = Ok (mr, w) /\
    r_Ein (mr_total mr) = pT p /\ r_Eout (mr_total mr) = 0 /\ r_Eloss (mr_total mr) = 0.
Proof.
  eexists. split; [reflexivity|]. cbn [mr_total]. unfold total_finish.
  destruct (fltb Ezero (pT p)); cbn [r_Ein r_Eloss r_tof r_Eout total0]; rewrite lit0; auto.
Qed.
Print Assumptions C15_empty.

(** the balance fails for an entry energy between 0 and the threshold *)
Theorem C15_balance_refuted :
  exists (junk : nat -> R * R) p ps m c w mr w',
    calculate_layers junk p ps [m] c w = Ok (mr, w') /\ 0 < pT p /\
    r_Eloss (mr_total mr) <> pA p * (r_Ein (mr_total mr) - r_Eout (mr_total mr)).
Proof.
  destruct (C12_low_energy junk0 (carbon (1 / 2000)) (water 1) conf world0) as (r & H & E1 & E2 & E3 & _).
  { cbn [pT carbon]. lra. }
  assert (L : calculate_layers junk0 (carbon (1 / 2000)) Phasespace0 [water 1] conf world0 =
    Ok (mkMulti [r] (total_finish (r_Eout r) (layer_update (water 1) r (total0 (carbon (1 / 2000)) Phasespace0))), world0)).
  { unfold calculate_layers. cbn [layers_loop]. change (at_T (carbon (1 / 2000)) (pT (carbon (1 / 2000)))) with (carbon (1 / 2000)).
    rewrite H. reflexivity. }
  do 8 eexists. split; [exact L|]. split; [cbn [pT carbon]; lra|].
  destruct (C15_sums _ _ _ _ _ _ _ _ L) as (-> & -> & _ & ->).
  cbn [mr_results map Rsum fold_right last]. rewrite E2, E3. cbn [pA pT carbon]. lra.
Qed.
Print Assumptions C15_balance_refuted.

(** carbon through a stack in which it stops; every entry energy is 300 or 0 *)
Example C15_case : exists th mr w',
  calculate_layers junk0 (carbon 300) Phasespace0 [water th; graphite 1] conf world0 = Ok (mr, w') /\
  Forall (fun e => e = 0 \/ 1 / 1000 - 10 / 4503599627370496 <= e)
         (firstn 2 (entries (pT (carbon 300)) (mr_results mr))).
Proof.
  destruct (stopping_case 300) as (th & r & w1 & _ & H & E); [lra|apply top_above; lra|].
  destruct (C12_low_energy junk0 (carbon 0) (graphite 1) conf w1) as (r2 & H2 & _ & E2 & _).
  { cbn [pT carbon]. lra. }
  exists th. eexists. exists w1. split.
  - unfold calculate_layers. cbn [layers_loop]. change (at_T (carbon 300) (pT (carbon 300))) with (carbon 300).
    rewrite H. cbn [bind]. rewrite E. change (at_T (carbon 300) 0) with (carbon 0). rewrite H2. cbn [bind]. reflexivity.
  - cbn [mr_results entries map firstn]. rewrite E. repeat constructor; cbn [pT carbon]; lra.
Qed.

(** ** C16 *)

(** covariance matrix of (position, angle): <x^2>, <x a>, <a^2> *)
Record cov2 := mkC2 { cxx : R; cxa : R; caa : R }.
(** free flight over the length l: x -> x + l a *)
Definition drift (l : R) (v : cov2) : cov2 :=
  mkC2 (cxx v + 2 * l * cxa v + l * l * caa v) (cxa v + l * caa v) (caa v).
Definition cadd (u v : cov2) : cov2 := mkC2 (cxx u + cxx v) (cxa u + cxa v) (caa u + caa v).
Definition psd (v : cov2) : Prop := 0 <= cxx v /\ 0 <= caa v /\ cxa v * cxa v <= cxx v * caa v.
Definition of_result (r : Result R) : cov2 :=
  mkC2 (r_sigma_x r * r_sigma_x r) (r_cov r) (r_sigma_a r * r_sigma_a r).
Definition of_phasespace (ps : Phasespace R) : cov2 :=
  mkC2 (ps_sigma_x ps * ps_sigma_x ps) (ps_cov_x ps) (ps_sigma_a ps * ps_sigma_a ps).
(** transport through the layers: drift by the thickness, then add the layer's own scattering *)
Fixpoint transport (lr : list (Material R * Result R)) (v : cov2) : cov2 :=
  match lr with
  | [] => v
  | (m, r) :: lr' => transport lr' (cadd (drift (m_th m / m_rho m) v) (of_result r))
  end.

Lemma thickness_cm_R (m : Material R) : thickness_cm m = m_th m / m_rho m.
Proof. reflexivity. Qed.

Lemma totals_cov : forall ms rs (t : Result R), length rs = length ms ->
  let t' := totals ms rs t in
  mkC2 (r_sigma_x t') (r_cov t') (r_sigma_a t') =
  transport (combine ms rs) (mkC2 (r_sigma_x t) (r_cov t) (r_sigma_a t)).
Proof.
  unfold totals. cbv zeta. induction ms as [|m ms IH]; intros [|r rs] t H; try discriminate.
  - reflexivity.
  - cbn [combine fold_left fst snd transport]. rewrite IH by now injection H. f_equal.
    unfold cadd, drift, of_result, layer_update. cbn [r_sigma_x r_cov r_sigma_a cxx cxa caa].
    rewrite thickness_cm_R. numR. dec_norm. f_equal; ring.
Qed.

Theorem C16_transport (junk : nat -> R * R) p ps ms c w mr w' :
  calculate_layers junk p ps ms c w = Ok (mr, w') ->
  let v := transport (combine ms (mr_results mr)) (of_phasespace ps) in
  let e := match mr_results mr with [] => pT p | _ => r_Eout (last (mr_results mr) Result0) end in
  r_sigma_x (mr_total mr) = sqrt (Rabs (cxx v)) /\ r_cov (mr_total mr) = cxa v /\
  r_sigma_a (mr_total mr) = (if Rlt_dec (1 / 1000) e then sqrt (caa v) else 0).
Proof.
  unfold calculate_layers. intros H. apply bind_ok in H. destruct H as ([[[rs e'] tot] w1] & H & E).
  injection E as <- <-. cbn [mr_results mr_total]. apply layers_stack in H. destruct H as (H & ->).
  cbv zeta. rewrite <- (stack_exit junk p c _ _ _ _ _ _ H).
  pose proof (totals_cov ms rs (total0 p ps) (stack_length junk p c _ _ _ _ _ _ H)) as X. cbv zeta in X.
  change (mkC2 (r_sigma_x (total0 p ps)) (r_cov (total0 p ps)) (r_sigma_a (total0 p ps))) with (of_phasespace ps) in X.
  rewrite <- X. cbn [cxx cxa caa]. unfold total_finish. rewrite Ezero_R. numR.
  destruct (Rltb_spec (1 / 1000) e'); destruct (Rlt_dec (1 / 1000) e'); try contradiction;
    cbn [r_sigma_x r_cov r_sigma_a]; (split; [reflexivity|]); (split; [reflexivity|]);
    (reflexivity || exact lit0).
Qed.
Print Assumptions C16_transport.

Theorem C16_transport_app l1 l2 v : transport (l1 ++ l2) v = transport l2 (transport l1 v).
Proof. revert v. induction l1 as [|[m r] l1 IH]; intros v; cbn; auto. Qed.
Print Assumptions C16_transport_app.

(** the stack in two parts through the public interface: the totals of the first part, fed back as
    the initial phase space of the second, give the same beam *)
Theorem C16_split (junk : nat -> R * R) p ps l1 l2 c w mr w' m1 w1 e1 m2 w2 :
  calculate_layers junk p ps (l1 ++ l2) c w = Ok (mr, w') ->
  calculate_layers junk p ps l1 c w = Ok (m1, w1) ->
  e1 = (match mr_results m1 with [] => pT p | _ => r_Eout (last (mr_results m1) Result0) end) ->
  1 / 1000 < e1 ->
  psd (transport (combine l1 (mr_results m1)) (of_phasespace ps)) ->
  calculate_layers junk (at_T p e1)
    (mkPS (r_sigma_x (mr_total m1)) (r_sigma_a (mr_total m1)) (r_cov (mr_total m1))) l2 c w1 = Ok (m2, w2) ->
  l2 <> [] ->
  r_sigma_x (mr_total mr) = r_sigma_x (mr_total m2) /\ r_cov (mr_total mr) = r_cov (mr_total m2) /\
  r_sigma_a (mr_total mr) = r_sigma_a (mr_total m2).
Proof.
  intros H H1 E1 L PS H2 NE.
  destruct (C14_append junk p ps (mkPS (r_sigma_x (mr_total m1)) (r_sigma_a (mr_total m1)) (r_cov (mr_total m1)))
              l1 l2 c w mr w' H) as (m1' & w1' & m2' & A1 & A2 & A3).
  rewrite H1 in A1. injection A1 as <- <-. rewrite <- E1 in A2. rewrite H2 in A2. injection A2 as <- ->.
  destruct (C16_transport _ _ _ _ _ _ _ _ H) as (X1 & X2 & X3). cbv zeta in X1, X2, X3.
  destruct (C16_transport _ _ _ _ _ _ _ _ H1) as (Y1 & Y2 & Y3). cbv zeta in Y1, Y2, Y3. rewrite <- E1 in Y3.
  destruct (C16_transport _ _ _ _ _ _ _ _ H2) as (Z1 & Z2 & Z3). cbv zeta in Z1, Z2, Z3.
  destruct PS as (P1 & P2 & P3).
  assert (V : of_phasespace (mkPS (r_sigma_x (mr_total m1)) (r_sigma_a (mr_total m1)) (r_cov (mr_total m1))) =
              transport (combine l1 (mr_results m1)) (of_phasespace ps)).
  { unfold of_phasespace at 1. cbn [ps_sigma_x ps_sigma_a ps_cov_x]. rewrite Y1, Y2, Y3.
    destruct (Rlt_dec (1 / 1000) e1); [|contradiction]. rewrite Rabs_pos_eq by assumption.
    rewrite !sqrt_sqrt by assumption. destruct (transport _ _); reflexivity. }
  assert (LN : length (mr_results m1) = length l1) by (apply (C14_in_order junk p ps l1 c w m1 w1 H1)).
  assert (LN2 : length (mr_results m2) = length l2)
    by (apply (C14_in_order junk _ _ l2 c w1 m2 w' H2)).
  assert (CB : combine (l1 ++ l2) (mr_results mr) = combine l1 (mr_results m1) ++ combine l2 (mr_results m2)).
  { rewrite A3. clear - LN. revert LN. generalize (mr_results m1). induction l1 as [|a l1 IH]; intros [|b l] H;
      try discriminate; cbn; auto. f_equal. apply IH. now injection H. }
  assert (LE : (match mr_results mr with [] => pT p | _ => r_Eout (last (mr_results mr) Result0) end) =
               (match mr_results m2 with [] => pT (at_T p e1) | _ => r_Eout (last (mr_results m2) Result0) end)).
  { assert (N2 : mr_results m2 <> []) by (intros Z; rewrite Z in LN2; destruct l2; [contradiction|discriminate]).
    rewrite A3. destruct (mr_results m2) as [|b l] eqn:EB; [contradiction|].
    assert (LA : forall x, last (x ++ b :: l) Result0 = last (b :: l) Result0).
    { induction x as [|y x IHx]; auto. cbn [app]. rewrite <- IHx. destruct (x ++ b :: l) eqn:EX; auto.
      destruct x; discriminate. }
    rewrite LA. destruct (mr_results m1); reflexivity. }
  rewrite CB, C16_transport_app in X1, X2, X3. rewrite LE in X3. rewrite V in Z1, Z2, Z3.
  rewrite X1, X2, X3, Z1, Z2, Z3. auto.
Qed.
Print Assumptions C16_split.

Lemma psd_drift l v : psd v -> psd (drift l v).
Proof.
  destruct v as [x c a]. unfold psd, drift. cbn. intros (H1 & H2 & H3). split; [|split].
  - destruct (Req_dec a 0) as [->|NA].
    + assert (c = 0) by nra. subst. lra.
    + assert (a * (x + 2 * l * c + l * l * a) = (c + l * a) * (c + l * a) + (x * a - c * c)) by ring.
      apply Rmult_le_reg_l with a; [lra|]. pose proof (Rle_0_sqr (c + l * a)) as Q. unfold Rsqr in Q. lra.
  - assumption.
  - nra.
Qed.
Lemma psd_add u v : psd u -> psd v -> psd (cadd u v).
Proof.
  destruct u as [x c a], v as [y d b]. unfold psd, cadd. cbn. intros (H1 & H2 & H3) (K1 & K2 & K3).
  split; [lra|]. split; [lra|].
  (* 2cd <= xb + ya *)
  assert (Q : (2 * (c * d)) * (2 * (c * d)) <= (x * b + y * a) * (x * b + y * a)).
  { assert (c * c * (d * d) <= x * a * (y * b)) by (apply Rmult_le_compat; nra).
    pose proof (Rle_0_sqr (x * b - y * a)) as Q. unfold Rsqr in Q. lra. }
  assert (2 * (c * d) <= x * b + y * a).
  { apply Rsqr_incr_0_var; [exact Q|]. pose proof (Rmult_le_pos x b H1 K2). pose proof (Rmult_le_pos y a K1 H2). lra. }
  nra.
Qed.

(** positive semidefinite matrices stay so, hence the absolute value under the root never acts *)
Theorem C16_psd lr v :
  psd v -> Forall (fun mr => psd (of_result (snd mr))) lr -> psd (transport lr v).
Proof.
  revert v. induction lr as [|[m r] lr IH]; intros v PV H; [assumption|].
  inversion H; subst. cbn [transport]. apply IH; [|assumption]. apply psd_add; [now apply psd_drift|assumption].
Qed.
Print Assumptions C16_psd.

Theorem C16_abs_idle (junk : nat -> R * R) p ps ms c w mr w' :
  calculate_layers junk p ps ms c w = Ok (mr, w') ->
  psd (of_phasespace ps) ->
  Forall (fun r => psd (of_result r)) (mr_results mr) ->
  let v := transport (combine ms (mr_results mr)) (of_phasespace ps) in
  psd v /\ r_sigma_x (mr_total mr) = sqrt (cxx v).
Proof.
  intros H PV HR. cbv zeta.
  assert (X : psd (transport (combine ms (mr_results mr)) (of_phasespace ps))).
  { apply C16_psd; [assumption|]. apply Forall_forall. intros [m r] HI. apply in_combine_r in HI.
    rewrite Forall_forall in HR. apply HR. assumption. }
  split; [assumption|]. destruct (C16_transport _ _ _ _ _ _ _ _ H) as (-> & _). f_equal.
  apply Rabs_pos_eq. apply X.
Qed.
Print Assumptions C16_abs_idle.

(** a beam of 3 mm and 4 mrad with correlation, flying through 2 cm *)
Example C16_case :
  psd (mkC2 9 6 16) /\ drift 2 (mkC2 9 6 16) = mkC2 97 38 16 /\
  psd (cadd (drift 2 (mkC2 9 6 16)) (mkC2 1 1 2)).
Proof.
  unfold psd, drift, cadd. cbn. split; [lra|]. split; [f_equal; lra|]. lra.
Qed.
Example C16_case_stack : exists th mr w',
  calculate_layers junk0 (carbon 300) (mkPS 3 4 6) [water th; graphite 1] conf world0 = Ok (mr, w') /\
  psd (of_phasespace (mkPS 3 4 6)).
Proof.
  destruct (stopping_case 300) as (th & r & w1 & _ & H & E); [lra|apply top_above; lra|].
  destruct (C12_low_energy junk0 (carbon 0) (graphite 1) conf w1) as (r2 & H2 & _ & E2 & _).
  { cbn [pT carbon]. lra. }
  exists th. eexists. exists w1. split.
  - unfold calculate_layers. cbn [layers_loop]. change (at_T (carbon 300) (pT (carbon 300))) with (carbon 300).
    rewrite H. cbn [bind]. rewrite E. change (at_T (carbon 300) 0) with (carbon 0). rewrite H2. cbn [bind]. reflexivity.
  - unfold psd, of_phasespace. cbn. lra.
Qed.

(** ** C17 *)
Definition Rprod (l : list R) : R := fold_right Rmult 1 l.

Lemma totals_sp : forall ms rs (t : Result R), length rs = length ms ->
  r_sp (totals ms rs t) = fold_left (fun s x => if Rle_dec 0 x then s * x else -1) (map r_sp rs) (r_sp t).
Proof.
  unfold totals. induction ms as [|m ms IH]; intros [|r rs] t H; try discriminate; [reflexivity|].
  cbn [combine fold_left fst snd map]. rewrite IH by now injection H. f_equal.
  cbn [layer_update r_sp]. rewrite lit0. numR.
  destruct (Rleb_spec 0 (r_sp r)); destruct (Rle_dec 0 (r_sp r)); try contradiction;
    [reflexivity|]. dec_norm. lra.
Qed.

Lemma stack_sp (junk : nat -> R * R) p ps ms c w mr w' :
  calculate_layers junk p ps ms c w = Ok (mr, w') ->
  r_sp (mr_total mr) = fold_left (fun s x => if Rle_dec 0 x then s * x else -1) (map r_sp (mr_results mr)) 1.
Proof.
  unfold calculate_layers. intros H. apply bind_ok in H. destruct H as ([[[rs e'] tot] w1] & H & E).
  injection E as <- <-. cbn [mr_results mr_total]. apply layers_stack in H. destruct H as (H & ->).
  unfold total_finish. destruct (fltb Ezero e'); cbn [r_sp];
    rewrite totals_sp by (eapply stack_length; eauto); cbn [total0 r_sp]; rewrite lit1; reflexivity.
Qed.

Lemma sp_fold l : forall s, Forall (fun x => 0 <= x) l ->
  fold_left (fun s x => if Rle_dec 0 x then s * x else -1) l s = s * Rprod l.
Proof.
  induction l as [|x l IH]; intros s H; cbn [fold_left Rprod fold_right]; [ring|].
  inversion H; subst. rewrite IH by assumption. destruct (Rle_dec 0 x); [unfold Rprod; ring|contradiction].
Qed.

Theorem C17_product (junk : nat -> R * R) p ps ms c w mr w' :
  calculate_layers junk p ps ms c w = Ok (mr, w') ->
  Forall (fun r => 0 <= r_sp r) (mr_results mr) ->
  r_sp (mr_total mr) = Rprod (map r_sp (mr_results mr)).
Proof.
  intros H HF. rewrite (stack_sp _ _ _ _ _ _ _ _ H), sp_fold; [ring|].
  apply Forall_forall. intros x Hx. apply in_map_iff in Hx. destruct Hx as (r & <- & Hr).
  rewrite Forall_forall in HF. auto.
Qed.
Print Assumptions C17_product.

Lemma sp_fold_neg l : Forall (fun x => x <> 0) l -> forall s, s < 0 ->
  fold_left (fun s x => if Rle_dec 0 x then s * x else -1) l s < 0.
Proof.
  induction l as [|x l IH]; intros H s Hs; cbn [fold_left]; auto. inversion H; subst.
  apply IH; auto. destruct (Rle_dec 0 x); [nra|lra].
Qed.

(** one negative layer and no zero makes the total negative *)
Theorem C17_negative (junk : nat -> R * R) p ps ms c w mr w' :
  calculate_layers junk p ps ms c w = Ok (mr, w') ->
  Exists (fun r => r_sp r < 0) (mr_results mr) -> Forall (fun r => r_sp r <> 0) (mr_results mr) ->
  r_sp (mr_total mr) < 0.
Proof.
  intros H HE HF. rewrite (stack_sp _ _ _ _ _ _ _ _ H). clear H. revert HE HF. generalize (mr_results mr).
  intros rs HE. generalize 1. induction HE as [r rs Hr|r rs HE IH]; intros s HF; inversion HF; subst;
    cbn [map fold_left].
  - destruct (Rle_dec 0 (r_sp r)); [lra|]. apply sp_fold_neg; [|lra].
    apply Forall_forall. intros x Hx. apply in_map_iff in Hx. destruct Hx as (r' & <- & Hr').
    rewrite Forall_forall in H2. auto.
  - apply IH. assumption.
Qed.
Print Assumptions C17_negative.

(** probabilities that are -1 or in [0,1], where after a -1 only -1 or 1 follow *)
Fixpoint sp_run (l : list R) : Prop :=
  match l with
  | [] => True
  | x :: l' => (x = -1 /\ Forall (fun y => y = -1 \/ y = 1) l') \/ (0 <= x <= 1 /\ sp_run l')
  end.

Theorem C17_range (junk : nat -> R * R) p ps ms c w mr w' :
  calculate_layers junk p ps ms c w = Ok (mr, w') ->
  sp_run (map r_sp (mr_results mr)) ->
  r_sp (mr_total mr) = -1 \/ 0 <= r_sp (mr_total mr) <= 1.
Proof.
  intros H HS. rewrite (stack_sp _ _ _ _ _ _ _ _ H). clear H. revert HS. generalize (map r_sp (mr_results mr)).
  intros l. assert (X : forall s, 0 <= s <= 1 -> sp_run l ->
    let x := fold_left (fun s x => if Rle_dec 0 x then s * x else -1) l s in x = -1 \/ 0 <= x <= 1).
  { cbv zeta. induction l as [|x l IH]; intros s Hs HS; cbn [fold_left]; [auto|].
    destruct HS as [(-> & HF)|(Hx & HS)].
    - left. destruct (Rle_dec 0 (-1)); [lra|]. clear - HF. induction HF as [|y l Hy HF IH]; auto.
      cbn [fold_left]. destruct (Rle_dec 0 y); [|exact IH]. replace (-1 * y) with (-1) by lra. exact IH.
    - destruct (Rle_dec 0 x); [|lra]. apply IH; auto. nra. }
  intros HS. apply X; auto. lra.
Qed.
Print Assumptions C17_range.

(** Once a layer has reported -1, a later probability strictly between 0 and 1 gives a total that is
    neither -1 nor a probability; the loop does not prevent it. *)
Theorem C17_minus_one_not_absorbing :
  fold_left (fun s x => if Rle_dec 0 x then s * x else -1) [-1; 1 / 2] 1 = - (1 / 2).
Proof. cbn. destruct (Rle_dec 0 (-1)); [lra|]. destruct (Rle_dec 0 (1 / 2)); lra. Qed.

Example C17_case : sp_run [1; 9 / 10; -1; -1; 1].
Proof. cbn. right. split; [lra|]. right. split; [lra|]. left. split; [lra|]. repeat constructor; lra. Qed.
