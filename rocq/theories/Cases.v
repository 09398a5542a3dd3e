(** * Concrete inputs used in the Examples: protons and carbon ions, water and graphite *)
From Coq Require Import ZArith Reals List Bool Lra Lia.
From Verif Require Import Num NumR Structures EnergyTable Spline Integrator Calculations NucData
  Reactions Storage Catima CacheProofs CacheFresh History KeyEq ApiCache BoundsProofs TotalProofs ApiTotal.
Import ListNotations.
Local Open Scope R_scope.

Definition proton (T : R) : Projectile R := mkProj 1 1 1 T.
Definition carbon (T : R) : Projectile R := mkProj 12 6 6 T.
(** H2O, 1 g/cm3 *)
Definition water (th : R) : Material R :=
  mkMat 1 th 18 0 [mkTarget 1 1 2; mkTarget 16 8 1].
Definition graphite (th : R) : Material R := mkMat 2 th 12 0 [mkTarget 12 6 1].
Definition junk0 : nat -> R * R := fun _ => (0, 0).
Definition conf : Config R := Config0.
Definition conf_sf (s : R) : Config R :=
  mkConfig (c_zeff conf) (c_corr conf) (c_calc conf) (c_low conf) (c_scat conf) s.

Lemma proton_legit T : legit_p (proton T). Proof. unfold legit_p, proton; simpl; lra. Qed.
Lemma carbon_legit T : legit_p (carbon T). Proof. unfold legit_p, carbon; simpl; lra. Qed.
Lemma water_legit th : legit_t (water th).
Proof. unfold legit_t, water; simpl. repeat constructor; simpl; try lia; lra. Qed.
Lemma graphite_legit th : legit_t (graphite th).
Proof. unfold legit_t, graphite; simpl. repeat constructor; simpl; try lia; lra. Qed.
#[global] Hint Resolve proton_legit carbon_legit water_legit graphite_legit : cases.

(** calls that need no condition on the energies *)
Definition simple_call (q : call R) : Prop :=
  match q with
  | CCalculate _ _ _ | CLayers _ _ _ _ => False
  | _ => True
  end.
Definition legit_call (q : call R) : Prop :=
  Forall (fun k => legit_p (fst (fst k)) /\ legit_t (snd (fst k))) (keys_of q).

Lemma legit_one q p t c : keys_of q = [(p, t, c)] -> legit_p p -> legit_t t -> legit_call q.
Proof. intros E LP LT. unfold legit_call. rewrite E. constructor; [split; assumption|constructor]. Qed.

Lemma simple_total junk q w : simple_call q -> legit_call q -> world_ok w ->
  exists r w', exec junk q w = Ok (r, w') /\ world_ok w'.
Proof.
  intros S L W.
  assert (H1 : forall p t c, keys_of q = [(p, t, c)] -> legit_p p /\ legit_t t).
  { intros p t c E. unfold legit_call in L. rewrite E in L. now inversion L. }
  assert (U : forall A (f : A -> list R) (x : outcome (A * world R)), good w x ->
             exists r w', omap (fun r => (f (fst r), snd r)) x = Ok (r, w') /\ world_ok w').
  { intros A f x (a & w' & -> & O & _). simpl. eauto. }
  destruct q; try contradiction; simpl exec; unfold one;
    try (destruct (H1 _ _ _ eq_refl) as [LP LT]);
    try (apply (U _ (fun r => [r])); clear U;
      auto using range_good, dedx_from_range_good, range_straggling_good, range_variance_good,
        domega2de_good, angular_variance_good, angular_straggling_good,
        angular_straggling_from_E_good, energy_straggling_from_E_good, energy_out_good,
        nonreaction_rate_good; fail).
  - destruct (dedx_from_range_v_good junk p t c w LP LT W T) as (a & w' & -> & O & _). eauto.
  - destruct (energy_out_v_good junk p t c w LP LT W T) as (a & w' & -> & O & _). eauto.
  - apply (U _ (fun r => [fst r; snd r])). now apply w_magnification_good.
  - do 2 eexists. split; [reflexivity|apply world_ok_reset].
  - do 2 eexists. split; [reflexivity|]. destruct W as [[W1 W2] V]. split; [split|]; assumption.
Qed.

Lemma simple_history_total junk h : forall w, Forall simple_call h -> Forall legit_call h ->
  world_ok w -> exists w', exec_all junk h w = Ok w' /\ world_ok w'.
Proof.
  induction h as [|q h IH]; intros w S L W.
  - exists w. split; [reflexivity|assumption].
  - inversion S; inversion L; subst.
    destruct (simple_total junk q w) as (r & w1 & E & O1); auto.
    destruct (IH w1) as (w2 & E2 & O2); auto.
    exists w2. split; auto. unfold exec_all. cbn [ofold]. rewrite E. cbn [omap bind snd]. exact E2.
Qed.

(** a history with four different keys and a repeated one *)
Definition history1 : list (call R) :=
  [CRange (proton 100) (water 1) conf; CEnergyOut (carbon 300) (water 2) conf;
   CRangeStraggling (proton 100) 50 (graphite 1) conf; CAngularVariance (carbon 200) (graphite 3) conf 2;
   CDedx (proton 7) (water 5) conf; CNonreaction (carbon 300) (graphite 1) conf].
Lemma history1_total : exists w, exec_all junk0 history1 world0 = Ok w /\ world_ok w.
Proof.
  apply simple_history_total; [repeat constructor| |apply world_ok0].
  unfold history1, legit_call.
  repeat match goal with |- Forall _ _ => constructor | |- _ /\ _ => split end; simpl; auto with cases.
Qed.
