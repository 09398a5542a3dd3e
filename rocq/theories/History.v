(** * Histories of library calls (support for C01)

    A program using the library is a list of calls; the numbers each call returns are collected
    in a list. *)
From Coq Require Import ZArith List Bool Lia.
From Verif Require Import Num Structures EnergyTable Spline Integrator Calculations NucData
  Reactions Storage CacheProofs Catima CacheFresh.
Import ListNotations.

Section Calls.
  Context {F : Type} {N : Num F}.

  Inductive call :=
  | CRange (p : Projectile F) (t : Material F) (c : Config F)
  | CDedx (p : Projectile F) (t : Material F) (c : Config F)
  | CDedxV (p : Projectile F) (T : list F) (t : Material F) (c : Config F)
  | CRangeStraggling (p : Projectile F) (T : F) (t : Material F) (c : Config F)
  | CRangeVariance (p : Projectile F) (T : F) (t : Material F) (c : Config F)
  | CDomega2de (p : Projectile F) (T : F) (t : Material F) (c : Config F)
  | CAngularVariance (p : Projectile F) (t : Material F) (c : Config F) (order : Z)
  | CAngularStraggling (p : Projectile F) (t : Material F) (c : Config F)
  | CAngularStragglingE (p : Projectile F) (Tout : F) (t : Material F) (c : Config F)
  | CEnergyStragglingE (p : Projectile F) (T Tout : F) (t : Material F) (c : Config F)
  | CEnergyOut (p : Projectile F) (t : Material F) (c : Config F)
  | CEnergyOutV (p : Projectile F) (T : list F) (t : Material F) (c : Config F)
  | CNonreaction (p : Projectile F) (t : Material F) (c : Config F)
  | CMagnification (p : Projectile F) (Ein : F) (t : Material F) (c : Config F)
  | CCalculate (p : Projectile F) (t : Material F) (c : Config F)
  | CLayers (p : Projectile F) (ps : Phasespace F) (ls : Layers F) (c : Config F)
  | CReset                        (* _storage.Reset() *)
  | CSetDefault (c : Config F).   (* assignment to default_config *)

  Definition result_list (r : Result F) : list F :=
    [r_Ein r; r_Eout r; r_Eloss r; r_range r; r_dEdxi r; r_dEdxo r; r_sigma_E r; r_sigma_a r;
     r_sigma_r r; r_sigma_x r; r_cov r; r_tof r; r_sp r].

  Definition one (x : outcome (F * world F)) : outcome (list F * world F) :=
    omap (fun r => ([fst r], snd r)) x.

  Variable junk : nat -> F * F.

  Definition exec (q : call) (w : world F) : outcome (list F * world F) :=
    match q with
    | CRange p t c => one (range junk p t c w)
    | CDedx p t c => one (dedx_from_range junk p t c w)
    | CDedxV p T t c => dedx_from_range_v junk p T t c w
    | CRangeStraggling p T t c => one (range_straggling junk p T t c w)
    | CRangeVariance p T t c => one (range_variance junk p T t c w)
    | CDomega2de p T t c => one (domega2de junk p T t c w)
    | CAngularVariance p t c o => one (angular_variance junk p t c o w)
    | CAngularStraggling p t c => one (angular_straggling junk p t c w)
    | CAngularStragglingE p Tout t c => one (angular_straggling_from_E junk p Tout t c w)
    | CEnergyStragglingE p T Tout t c => one (energy_straggling_from_E junk p T Tout t c w)
    | CEnergyOut p t c => one (energy_out junk p t c w)
    | CEnergyOutV p T t c => energy_out_v junk p T t c w
    | CNonreaction p t c => one (nonreaction_rate junk p t c w)
    | CMagnification p Ein t c =>
        omap (fun r => ([fst (fst r); snd (fst r)], snd r)) (w_magnification junk p Ein t c w)
    | CCalculate p t c => omap (fun r => (result_list (fst r), snd r)) (calculate junk p t c w)
    | CLayers p ps ls c =>
        omap (fun r => (concat (map result_list (mr_results (fst r)))
                          ++ result_list (mr_total (fst r)), snd r))
             (calculate_layers junk p ps ls c w)
    | CReset => Ok ([], data_reset w)
    | CSetDefault c => Ok ([], mkW (w_slots w) (w_index w) c (w_junk w))
    end.

  Definition exec_all (h : list call) (w : world F) : outcome (world F) :=
    ofold (fun w q => omap snd (exec q w)) h w.

  (** the keys a call looks up (the thickness of a derived material does not matter) *)
  Definition keys_of (q : call) : list (Projectile F * Material F * Config F) :=
    match q with
    | CRange p t c | CDedx p t c | CDedxV p _ t c | CRangeStraggling p _ t c
    | CRangeVariance p _ t c | CDomega2de p _ t c | CAngularVariance p t c _
    | CAngularStraggling p t c | CAngularStragglingE p _ t c | CEnergyStragglingE p _ _ t c
    | CEnergyOut p t c | CEnergyOutV p _ t c | CNonreaction p t c | CMagnification p _ t c
    | CCalculate p t c => [(p, t, c)]
    | CLayers p _ ls c => map (fun m => (p, m, c)) ls
    | CReset | CSetDefault _ => []
    end.

  (** the tabulated angular variance enters only calculate with atima scattering *)
  Definition needs_angular (q : call) : bool :=
    match q with
    | CCalculate _ _ c | CLayers _ _ _ c => Z.eqb (c_scat c) sc_atima
    | _ => false
    end.
End Calls.
Arguments call F : clear implicits.

Section Unobservable.
  Context {F : Type} {N : Num F}.
  Variable junk : nat -> F * F.
  Hypothesis junk_const : forall k, junk k = junk 0%nat.
  Variable K : Projectile F -> Material F -> Config F -> Prop.
  Hypothesis K_exact : forall p t c p' t' c', K p t c -> K p' t' c' ->
    proj_eqb p' p = true -> mat_eqb t' t = true -> config_eqb c' c = true ->
    same_data p t c p' t' c'.
  Variable exact_sfac : Prop.
  Hypothesis K_sfac : exact_sfac -> forall p t c p' t' c', K p t c -> K p' t' c' ->
    config_eqb c' c = true -> c_sfac c = c_sfac c'.
  Hypothesis K_th : forall p t c th, K p t c -> K p (set_thickness t th) c.
  Hypothesis K_T : forall p t c e, K p t c -> K (at_T p e) t c.

  Definition call_ok (q : call F) : Prop :=
    Forall (fun k => okkey K (fst (fst k)) (snd (fst k)) (snd k)) (keys_of q) /\
    (needs_angular q = true -> exact_sfac).

  Lemma okkey_th p t c th : okkey K p t c -> okkey K p (set_thickness t th) c.
  Proof. intros [H1 H2]. split; auto. Qed.
  Lemma okkey_T p t c e : okkey K p t c -> okkey K (at_T p e) t c.
  Proof. intros [H1 H2]. split; auto. Qed.

  Lemma osim_omap {A B} (f : A -> B) (x y : outcome (A * world F)) :
    osim (res junk K) x y ->
    osim (res junk K) (omap (fun r => (f (fst r), snd r)) x) (omap (fun r => (f (fst r), snd r)) y).
  Proof.
    destruct x as [[a w]|], y as [[b w']|]; simpl; auto.
    intros [E A']; simpl in *; subst. split; auto.
  Qed.

  Lemma exec_alike q w w' : call_ok q -> alike junk K w w' ->
    osim (res junk K) (exec junk q w) (exec junk q w').
  Proof.
    intros [KO X] A.
    assert (H1 : forall p t c, keys_of q = [(p, t, c)] -> okkey K p t c).
    { intros p t c E. rewrite E in KO. now inversion KO. }
    pose proof okkey_th. pose proof okkey_T.
    destruct q; simpl exec; unfold one;
      try (specialize (H1 _ _ _ eq_refl));
      try (apply (osim_omap (fun r => [r])));
      eauto using range_alike, dedx_from_range_alike, dedx_from_range_v_alike, range_straggling_alike,
        range_variance_alike, domega2de_alike, angular_variance_alike, angular_straggling_alike,
        angular_straggling_from_E_alike, energy_straggling_from_E_alike, energy_out_alike,
        energy_out_v_alike, nonreaction_rate_alike.
    - apply (osim_omap (fun r => [fst r; snd r])). eapply w_magnification_alike; eauto.
    - apply (osim_omap result_list). eapply calculate_alike; eauto.
    - apply (osim_omap (fun r => concat (map result_list (mr_results r)) ++ result_list (mr_total r))).
      eapply calculate_layers_alike; eauto.
      simpl in KO. apply Forall_forall. intros m Hm. rewrite Forall_forall in KO.
      apply (KO (p, m, c)). apply in_map_iff. eauto.
    - destruct A as (I1 & I2 & E). split; [reflexivity|].
      split; [apply inv_reset|split; [apply inv_reset|exact E]].
    - destruct A as ([I1 I1'] & [I2 I2'] & E). split; auto. split; [|split]; simpl; auto; split; auto.
  Qed.

  Lemma exec_all_inv h : forall w w', Forall call_ok h -> inv junk K w ->
    exec_all junk h w = Ok w' -> inv junk K w'.
  Proof.
    induction h as [|q h IH]; intros w w' O I E.
    - unfold exec_all in E; simpl in E. congruence.
    - inversion O; subst. unfold exec_all in E; simpl in E. apply bind_ok in E.
      destruct E as (w1 & E1 & E2).
      pose proof (exec_alike q w w H1 (conj I (conj I eq_refl))) as S.
      destruct (exec junk q w) as [[r w2]|]; simpl in *; [|discriminate].
      inversion E1; subst. eapply IH; [assumption| |exact E2]. apply S.
  Qed.

  (** after any history, a call returns what it returns on an empty cache *)
  Lemma call_unobservable h q w : Forall call_ok h -> call_ok q ->
    exec_all junk h world0 = Ok w ->
    omap fst (exec junk q w) = omap fst (exec junk q (data_reset w)).
  Proof.
    intros OH OQ E. pose proof (exec_all_inv h world0 w OH (inv_world0 junk K) E) as I.
    assert (A : alike junk K w (data_reset w)).
    { split; auto. split; [apply inv_reset|reflexivity]. }
    pose proof (exec_alike q _ _ OQ A) as S.
    destruct (exec junk q w) as [[r1 w1]|], (exec junk q (data_reset w)) as [[r2 w2]|]; simpl in *;
      try contradiction; [|congruence].
    destruct S as [S _]. simpl in S. congruence.
  Qed.

  (** the entry handed out carries the freshly computed tables *)
  Lemma lookup_tables h w p t c d w' :
    Forall call_ok h -> exec_all junk h world0 = Ok w -> okkey K p t c ->
    lookup junk p t c w = Ok (d, w') ->
    range_table p t c = Ok (dp_range d) /\ straggling_table p t c = Ok (dp_rs d) /\
    (exact_sfac -> angular_table p t c = Ok (dp_av d)).
  Proof.
    intros OH E O L. pose proof (exec_all_inv h world0 w OH (inv_world0 junk K) E) as I.
    pose proof (lookup_fresh junk junk_const K K_exact exact_sfac K_sfac p t c w O I) as S.
    rewrite L in S. destruct (rcalc junk calculate_DataPoint 0 p t c) as [d0|] eqn:R; simpl in S; [|contradiction].
    destruct S as ((S1 & S2 & _) & S3 & _).
    unfold rcalc in R. apply bind_ok in R. destruct R as (d1 & R1 & R2).
    destruct (with_splines_key junk _ _ _ R2) as (_ & _ & _ & T1 & T2 & T3).
    unfold calculate_DataPoint in R1.
    apply bind_ok in R1; destruct R1 as (r & Q1 & R1).
    apply bind_ok in R1; destruct R1 as (a & Q2 & R1).
    apply bind_ok in R1; destruct R1 as (s & Q3 & R1). inversion R1; subst; simpl in *.
    split; [congruence|]. split; [congruence|]. intros X. destruct (S3 X). congruence.
  Qed.
End Unobservable.
