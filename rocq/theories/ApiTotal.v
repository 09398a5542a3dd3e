(** * Definedness of the library calls for legitimate inputs, in exact arithmetic (C52)

    "Legitimate": the projectile has 1 <= Z < 109 and 0 < A <= 1000, every constituent of the
    material has 1 <= Z <= 1000 and 0 < A <= 1000. *)
From Coq Require Import ZArith Reals List Bool Lra Lia.
From Verif Require Import Num NumR Structures EnergyTable Spline Integrator Srim Calculations
  NucData Reactions Storage Catima CacheProofs CacheFresh History GridProofs InterpProofs
  BoundsProofs TotalProofs DataProofs KeyEq ApiCache.
Import ListNotations.
Local Open Scope R_scope.

Lemma omapM_length {A B} (f : A -> outcome B) l : forall l', omapM f l = Ok l' -> length l' = length l.
Proof.
  induction l as [|x l IH]; intros l' H; simpl in H; [now inversion H|].
  apply bind_ok in H. destruct H as (y & _ & H). apply bind_ok in H. destruct H as (ys & H1 & H).
  inversion H; subst. simpl. f_equal. auto.
Qed.

Definition legit_p (p : Projectile R) : Prop := 1 <= pZ p < 109 /\ 0 < pA p <= 1000.
Definition legit_t (t : Material R) : Prop :=
  Forall (fun a => (1 <= tZ a <= 1000)%Z /\ 0 < tA a <= 1000) (m_atoms t).

Lemma legit_key p t : legit_p p -> legit_t t -> key_ok p t.
Proof.
  intros [LZ LA] LT. split; [exact LZ|]. split.
  - eapply Forall_impl; [|exact LT]. simpl. intros a ((A1 & A2) & _). exact A1.
  - eapply Forall_impl; [|exact LT]. simpl. intros a (A1 & _). lia.
Qed.
Lemma legit_at p e : legit_p p -> legit_p (at_T p e).
Proof. auto. Qed.
Lemma legit_th t th : legit_t t -> legit_t (set_thickness t th).
Proof. auto. Qed.

Lemma legit_not_default p t c : legit_p p -> key_match p t c DataPoint0 = false.
Proof.
  intros [[LZ _] _]. unfold key_match. simpl dp_p.
  assert (E : proj_eqb Projectile0 p = false).
  { apply not_true_is_false. intros H. apply proj_eqb_R in H. destruct H as (_ & H & _).
    cbn [Projectile0 pZ] in H. numR. dec_norm. lra. }
  now rewrite E.
Qed.

Section Total.
  Variable junk : nat -> R * R.

  Definition world_ok (w : world R) : Prop :=
    wf w /\ Forall (fun d => d = DataPoint0 \/ dp_ok d) (w_slots w).

  Lemma world_ok0 : world_ok world0.
  Proof.
    split; [apply wf_world0|]. apply Forall_forall. intros x Hx. left. now apply repeat_spec in Hx.
  Qed.
  Lemma world_ok_reset w : world_ok (data_reset w).
  Proof.
    split; [apply wf_reset|]. apply Forall_forall. intros x Hx. left. now apply repeat_spec in Hx.
  Qed.

  Definition good_lookup (w : world R) (x : outcome (DataPoint R * world R)) : Prop :=
    exists d w', x = Ok (d, w') /\ dp_ok d /\ world_ok w' /\ w_default w' = w_default w.

  Lemma lookup_total p t c w : legit_p p -> legit_t t -> world_ok w ->
    good_lookup w (lookup junk p t c w).
  Proof.
    intros LP LT [W V]. unfold lookup.
    destruct (get_spec junk calculate_DataPoint w p t c W) as
      [(i & e & G & Hi & E & M)|(NM & [(why & R & G)|(d & R & G & E)])].
    - rewrite G. cbn [bind]. unfold slot. rewrite E. cbn [bind]. exists e, w.
      split; [reflexivity|]. split; [|split; [split; auto|reflexivity]].
      eapply Forall_forall in V; [|eapply nth_error_In; exact E].
      destruct V as [->|V]; auto. rewrite legit_not_default in M by assumption. discriminate.
    - destruct (rcalc_total junk (w_junk w) p t c (legit_key _ _ LP LT)) as (d & R' & _). congruence.
    - destruct (rcalc_total junk (w_junk w) p t c (legit_key _ _ LP LT)) as (d' & R' & OK).
      rewrite R in R'. inversion R'; subst d'.
      rewrite G. cbn [bind]. unfold slot. rewrite E. cbn [bind]. exists d. eexists.
      split; [reflexivity|]. split; [exact OK|]. split; [split|reflexivity].
      + apply wf_inserted; auto.
      + simpl. apply Forall_set_slot; auto.
  Qed.

  (** a call that returns and leaves a sound cache behind *)
  Definition good {A} (w : world R) (x : outcome (A * world R)) : Prop :=
    exists a w', x = Ok (a, w') /\ world_ok w' /\ w_default w' = w_default w.

  Lemma good_look {A} p t c w (k : DataPoint R -> world R -> outcome (A * world R)) :
    legit_p p -> legit_t t -> world_ok w ->
    (forall d w', dp_ok d -> world_ok w' -> w_default w' = w_default w -> good w' (k d w')) ->
    good w (x <- lookup junk p t c w ;; let '(d, w') := x in k d w').
  Proof.
    intros LP LT W H. destruct (lookup_total p t c w LP LT W) as (d & w' & -> & OD & OW & ED).
    cbn [bind]. destruct (H d w' OD OW ED) as (a & w2 & E & OW2 & ED2).
    exists a, w2. split; [exact E|]. split; [exact OW2|congruence].
  Qed.
  Lemma good_pure {A B} (x : outcome B) (w : world R) (k : B -> outcome (A * world R)) :
    defined x -> (forall b, x = Ok b -> good w (k b)) -> good w (bind x k).
  Proof. intros [b E] H. rewrite E. cbn [bind]. now apply H. Qed.
  Lemma good_bind {A B} (x : outcome (B * world R)) w (k : B * world R -> outcome (A * world R)) :
    good w x -> (forall b w', x = Ok (b, w') -> world_ok w' -> w_default w' = w_default w ->
                 good w' (k (b, w'))) ->
    good w (bind x k).
  Proof.
    intros (b & w' & E & OW & ED) H. rewrite E. cbn [bind].
    destruct (H b w' E OW ED) as (a & w2 & E2 & OW2 & ED2). exists a, w2.
    split; [exact E2|]. split; [exact OW2|congruence].
  Qed.
  Lemma good_ok {A} (a : A) w : world_ok w -> good w (Ok (a, w)).
  Proof. intros W. exists a, w. auto. Qed.

  (** splines of a sound entry *)
  Lemma dp_range_ok d x : dp_ok d -> defined (interp_eval (dp_range_spline d) x).
  Proof. intros (s1 & s2 & s3 & E1 & E2 & E3 & O1 & O2 & O3). rewrite E1. now apply spline_eval_ok. Qed.
  Lemma dp_range_d_ok d x : dp_ok d -> defined (interp_deriv (dp_range_spline d) x).
  Proof. intros (s1 & s2 & s3 & E1 & E2 & E3 & O1 & O2 & O3). rewrite E1. now apply spline_deriv_ok. Qed.
  Lemma dp_rs_ok d x : dp_ok d -> defined (interp_eval (dp_rs_spline d) x).
  Proof. intros (s1 & s2 & s3 & E1 & E2 & E3 & O1 & O2 & O3). rewrite E2. now apply spline_eval_ok. Qed.
  Lemma dp_rs_d_ok d x : dp_ok d -> defined (interp_deriv (dp_rs_spline d) x).
  Proof. intros (s1 & s2 & s3 & E1 & E2 & E3 & O1 & O2 & O3). rewrite E2. now apply spline_deriv_ok. Qed.
  Lemma dp_av_ok d x : dp_ok d -> defined (interp_eval (dp_av_spline d) x).
  Proof. intros (s1 & s2 & s3 & E1 & E2 & E3 & O1 & O2 & O3). rewrite E3. now apply spline_eval_ok. Qed.
  Lemma dp_av_d_ok d x : dp_ok d -> defined (interp_deriv (dp_av_spline d) x).
  Proof. intros (s1 & s2 & s3 & E1 & E2 & E3 & O1 & O2 & O3). rewrite E3. now apply spline_deriv_ok. Qed.

  (** the Newton iteration *)
  Lemma newton_defined (rng drv : R -> outcome R) r th :
    (forall x, defined (rng x)) -> (forall x, defined (drv x)) ->
    forall k e d, defined (newton rng drv r th k e d).
  Proof.
    intros HR HD. induction k as [|k IH]; intros e d; simpl.
    - dbind; [apply HR|]. destruct (Rltb _ _); [apply defined_Ok|].
      destruct (Rltb _ _); [apply defined_Ok|]. dbind; [apply HD|]. apply defined_Ok.
    - dbind; [apply HR|]. destruct (Rltb _ _); [apply defined_Ok|].
      destruct (Rltb _ _); [apply defined_Ok|]. dbind; [apply HD|]. apply IH.
  Qed.
  Lemma energy_out_fn_defined (rng drv : R -> outcome R) T th :
    (forall x, defined (rng x)) -> (forall x, defined (drv x)) ->
    defined (energy_out_fn rng drv T th).
  Proof.
    intros HR HD. unfold energy_out_fn. dbind; [apply HR|]. dbind; [apply HD|].
    destruct (fleb _ _); [apply defined_Ok|]. now apply newton_defined.
  Qed.
  Lemma energy_out_sp_defined d T th : dp_ok d ->
    defined (energy_out_sp (dp_range_spline d) T th).
  Proof.
    intros O. apply energy_out_fn_defined; intros x; [now apply dp_range_ok|now apply dp_range_d_ok].
  Qed.

  Lemma integrate_defined f a b : (forall z, defined (f z)) -> defined (integrate (F:=R) f a b).
  Proof.
    intros H. unfold integrate, gl_integrate. change (Nat.odd 8) with false. cbv iota zeta.
    dbind; [|apply defined_Ok]. apply gl_pairs_ok. auto.
  Qed.
  Lemma integrate_below f a b m : a < m -> b < m -> (forall z, z < m -> defined (f z)) ->
    defined (integrate (F:=R) f a b).
  Proof.
    intros Ha Hb H. unfold integrate, gl_integrate. change (Nat.odd 8) with false. cbv iota zeta.
    dbind; [|apply defined_Ok]. apply gl_pairs_ok. intros n Hn.
    pose proof GL8_nodes_range as G. rewrite Forall_forall in G. specialize (G n Hn). destruct G as [G _].
    numR. dec_norm. split; apply H; nra.
  Qed.

  Lemma scattering_length_ok t : legit_t t -> defined (scattering_length (F:=R) t).
  Proof.
    intros LT. unfold scattering_length. dbind; [|apply defined_Ok].
    apply defined_ofold. intros b x Hx. eapply Forall_forall in LT; [|exact Hx]. simpl in LT.
    destruct LT as [LZ LA]. cbn [fto_int NumR]. rewrite Rto_int_nonneg by lra. cbn [cast bind].
    dbind; [|apply defined_Ok]. unfold scattering_length_az.
    destruct (Rfloor_bound (tA x)) as [B1 B2].
    assert (C1 : (-1 < Rfloor_Z (tA x))%Z) by (apply lt_IZR; lra).
    assert (C2 : (Rfloor_Z (tA x) <= 1000)%Z) by (apply le_IZR; lra).
    rewrite imul_ok by nia. cbn [bind]. apply defined_Ok.
  Qed.

  Lemma angular_variance_with_ok (rng eo : R -> outcome R) p t c o :
    (forall x, defined (rng x)) -> (forall x, defined (eo x)) -> legit_t t ->
    defined (angular_variance_with rng eo p t c o).
  Proof.
    intros HR HE LT. unfold angular_variance_with. cbv zeta. dbind; [apply HR|].
    dbind; [apply radiation_length_ok; eapply Forall_impl; [|exact LT]; simpl; intros ? (? & _); lia|].
    destruct (Z.eqb _ _).
    - dbind; [|apply defined_Ok]. apply integrate_defined. intros z. unfold fx0p_2.
      dbind; [apply HE|]. dbind; [|apply defined_Ok]. unfold angular_scattering_power_xs.
      destruct (fleb _ _); [apply defined_Ok|]. cbv zeta.
      dbind; [now apply scattering_length_ok|]. apply defined_Ok.
    - dbind; [|apply defined_Ok]. apply integrate_defined. intros z. unfold fx0p.
      dbind; [apply HE|]. apply defined_Ok.
  Qed.

  (** reactions *)
  Lemma isotope_small z : exists a, get_isotope_a z 0 = Ok a /\ (0 <= a <= 1000)%Z.
  Proof.
    destruct (isotope_lookup z 0 ltac:(lia)) as (E & _). exists (fst (nth (Z.to_nat 0) (isotopes z) (0%Z, 0%dec))).
    split; [exact E|]. clear E. change (Z.to_nat 0) with 0%nat.
    assert (D : (1 <= z <= 109)%Z \/ ~ (1 <= z <= 109)%Z) by lia. destruct D as [D|D].
    - pose proof (zforall (fun z => (0 <=? fst (nth 0 (isotopes z) (0%Z, 0%dec)))%Z
                                    && (fst (nth 0 (isotopes z) (0%Z, 0%dec)) <=? 1000)%Z) 1 109
                          ltac:(vm_compute; reflexivity) z ltac:(lia)) as C. cbv beta in C.
      apply andb_prop in C. destruct C as [C1 C2]. apply Z.leb_le in C1. apply Z.leb_le in C2.
      lia.
    - rewrite isotopes_out by assumption. simpl. lia.
  Qed.

  Lemma kox_ok Ap Zp E At Zt : (0 <= Ap <= 1000)%Z -> (0 <= Zp <= 1000)%Z -> (0 <= At <= 1000)%Z ->
    (0 <= Zt <= 1000)%Z -> defined (SigmaR_Kox (F:=R) Ap Zp E At Zt).
  Proof.
    intros. unfold SigmaR_Kox. cbv zeta. rewrite (imul_ok 2 Zt), (imul_ok Ap At), (imul_ok Zp Zt) by nia.
    cbn [bind]. rewrite isub_ok by lia. cbn [bind]. apply defined_Ok.
  Qed.

  Lemma sigma_r_ok eo ap zp t x : (forall x, defined (eo x)) ->
    (0 <= ap <= 1000)%Z -> (0 <= zp <= 1000)%Z -> legit_t t -> defined (sigma_r eo ap zp t x).
  Proof.
    intros HE HA HZ LT. unfold sigma_r. dbind; [apply HE|]. dbind; [|apply defined_Ok].
    apply defined_ofold. intros b y Hy. eapply Forall_forall in LT; [|exact Hy]. simpl in LT.
    destruct (isotope_small (tZ y)) as (at_ & -> & B). cbn [bind].
    dbind; [apply kox_ok; lia|]. apply defined_Ok.
  Qed.

  Lemma nonreaction_core_ok eo ap zp t : (forall x, defined (eo x)) ->
    (0 <= ap <= 1000)%Z -> (0 <= zp <= 1000)%Z -> legit_t t -> defined (nonreaction_core eo ap zp t).
  Proof.
    intros HE HA HZ LT. unfold nonreaction_core. dbind; [apply HE|].
    destruct (fltb _ _); [apply defined_Ok|].
    dbind; [now apply sigma_r_ok|]. dbind; [now apply sigma_r_ok|].
    dbind; [|apply defined_Ok]. destruct (fltb _ _); [apply defined_Ok|].
    dbind; [|apply defined_Ok]. apply integrate_defined. intros z. now apply sigma_r_ok.
  Qed.

  Lemma lround_ok x : 0 <= x <= 1000 -> exists z, cast (flround x) = Ok z /\ (0 <= z <= 1000)%Z.
  Proof.
    intros B. cbn [flround NumR]. unfold Rlround. destruct (Rle_dec 0 x); [|lra].
    fold (Rfloor_Z (x + /2)). destruct (Rfloor_bound (x + /2)) as [B1 B2].
    assert (C1 : (-1 < Rfloor_Z (x + /2))%Z) by (apply lt_IZR; lra).
    assert (C2 : (Rfloor_Z (x + /2) < 1001)%Z) by (apply lt_IZR; lra).
    rewrite int_range_some by lia. exists (Rfloor_Z (x + / 2)). split; [reflexivity|lia].
  Qed.

  (** ** The calls *)
  Section Calls.
    Variables (p : Projectile R) (t : Material R) (c : Config R) (w : world R).
    Hypothesis LP : legit_p p.
    Hypothesis LT : legit_t t.
    Hypothesis W : world_ok w.

    Ltac look := apply good_look; auto; intros d w' OD OW ED.
    Ltac pure := apply good_pure; [eauto using dp_range_ok, dp_range_d_ok, dp_rs_ok, dp_rs_d_ok, dp_av_ok, dp_av_d_ok, energy_out_sp_defined|intros ? ?].

    Lemma range_good : good w (range junk p t c w).
    Proof. unfold range. look. pure. now apply good_ok. Qed.
    Lemma dedx_from_range_good : good w (dedx_from_range junk p t c w).
    Proof. unfold dedx_from_range. look. pure. now apply good_ok. Qed.
    Lemma dedx_from_range_v_good l : good w (dedx_from_range_v junk p l t c w).
    Proof.
      unfold dedx_from_range_v. look. apply good_pure; [|intros; now apply good_ok].
      apply defined_omapM. intros x _. destruct (fltb _ _); [apply defined_Ok|].
      dbind; [now apply dp_range_d_ok|]. apply defined_Ok.
    Qed.
    Lemma range_straggling_good T : good w (range_straggling junk p T t c w).
    Proof. unfold range_straggling. look. pure. now apply good_ok. Qed.
    Lemma range_variance_good T : good w (range_variance junk p T t c w).
    Proof. unfold range_variance. look. pure. now apply good_ok. Qed.
    Lemma domega2de_good T : good w (domega2de junk p T t c w).
    Proof. unfold domega2de. look. pure. now apply good_ok. Qed.
    Lemma energy_straggling_from_E_good T T' : good w (energy_straggling_from_E junk p T T' t c w).
    Proof. unfold energy_straggling_from_E. look. pure. cbv zeta. pure. pure. now apply good_ok. Qed.
    Lemma energy_out_good : good w (energy_out junk p t c w).
    Proof. unfold energy_out. look. pure. now apply good_ok. Qed.
    Lemma energy_out_v_good l : good w (energy_out_v junk p l t c w).
    Proof.
      unfold energy_out_v. look. apply good_pure; [|intros; now apply good_ok].
      apply defined_omapM. intros x _. destruct (fltb _ _); [apply defined_Ok|].
      now apply energy_out_sp_defined.
    Qed.
    Lemma angular_variance_good o : good w (angular_variance junk p t c o w).
    Proof.
      unfold angular_variance. look. apply good_pure; [|intros; now apply good_ok].
      apply angular_variance_with_ok; auto; intros x; [now apply dp_range_ok|now apply energy_out_sp_defined].
    Qed.
    Lemma angular_straggling_good : good w (angular_straggling junk p t c w).
    Proof.
      unfold angular_straggling. apply good_bind; [apply angular_variance_good|].
      intros v w' _ OW _. now apply good_ok.
    Qed.
    Lemma nonreaction_rate_good : good w (nonreaction_rate junk p t c w).
    Proof.
      unfold nonreaction_rate. destruct (fltb _ _); [now apply good_ok|].
      destruct (fleb _ _); [now apply good_ok|]. destruct LP as [LZ LA].
      destruct (lround_ok (pA p)) as (ap & -> & BA); [lra|].
      destruct (lround_ok (pZ p)) as (zp & -> & BZ); [lra|]. cbn [bind].
      look. apply good_pure; [|intros; now apply good_ok].
      apply nonreaction_core_ok; auto. intros x. now apply energy_out_sp_defined.
    Qed.
  End Calls.

  Lemma angular_straggling_from_E_good p T t c w : legit_p p -> legit_t t -> world_ok w ->
    good w (angular_straggling_from_E junk p T t c w).
  Proof.
    intros LP LT W. unfold angular_straggling_from_E. apply good_look; auto. intros d w' OD OW ED.
    apply good_pure; [now apply dp_range_ok|]. intros r1 _.
    apply good_pure; [now apply dp_range_ok|]. intros r2 _.
    apply angular_straggling_good; auto.
  Qed.

  Lemma w_magnification_good p T t c w : legit_p p -> legit_t t -> world_ok w ->
    good w (w_magnification junk p T t c w).
  Proof.
    intros LP LT W. unfold w_magnification. destruct (_ || _)%bool; [now apply good_ok|]. cbv zeta.
    apply good_bind; [now apply energy_out_v_good|]. intros l w' E OW ED.
    assert (L : length l = 3%nat).
    { unfold energy_out_v in E. apply bind_ok in E. destruct E as ([d w1] & _ & E).
      apply bind_ok in E. destruct E as (l' & M & E). inversion E; subst.
      apply omapM_length in M. exact M. }
    apply good_pure; [apply defined_aget; lia|]. intros r0 _.
    apply good_pure; [apply defined_aget; lia|]. intros r1 _.
    apply good_pure; [apply defined_aget; lia|]. intros r2 _.
    destruct (_ && _)%bool; now apply good_ok.
  Qed.

  Lemma tof_ok p t c Eout : legit_p p -> legit_t t ->
    pT p < ls_glast - numeric_epsilon -> Eout < ls_glast - numeric_epsilon ->
    defined (calculate_tof_from_E p Eout t c).
  Proof.
    intros LP LT BT BE. unfold calculate_tof_from_E. dbind; [|apply defined_Ok].
    eapply integrate_below; [exact BE|exact BT|]. intros z Hz. unfold tof_integrand.
    dbind; [|apply defined_Ok]. destruct (legit_key p t LP LT) as (K1 & K2 & _).
    apply dedx_ok; auto. intros [C _]. cbn [at_T pT] in C. lra.
  Qed.

  (** energies below the end of the Lindhard tables *)
  Definition below_top (e : R) : Prop := e < ls_glast - numeric_epsilon.

  Lemma calculate_good p t c w : legit_p p -> legit_t t -> world_ok w -> below_top (pT p) ->
    (forall e w', energy_out junk p t c w = Ok (e, w') -> below_top e) ->
    good w (calculate junk p t c w).
  Proof.
    intros LP LT W BT BE. unfold calculate. cbv zeta.
    destruct (_ && _)%bool; [now apply good_ok|].
    destruct (lookup_total p t c w LP LT W) as (d & w1 & L & OD & OW & ED).
    unfold energy_out in BE. rewrite L in BE. rewrite L. cbn [bind] in BE |- *.
    assert (G : forall B (x : outcome (B * world R)), good w1 x -> good w x).
    { intros B x (a & w2 & E & OW2 & ED2). exists a, w2. split; auto. split; auto. congruence. }
    apply G.
    apply good_pure; [now apply dp_range_ok|]. intros rg _.
    apply good_pure; [now apply dp_range_d_ok|]. intros dr _.
    apply good_pure; [now apply dp_rs_ok|]. intros sv _.
    destruct (feqb (m_th t) (lit 0)); [now apply good_ok|].
    destruct (energy_out_sp_defined d (pT p) (m_th t) OD) as (Eo & EO).
    rewrite EO in BE |- *. cbn [bind] in BE |- *. specialize (BE Eo w1 eq_refl).
    apply good_bind.
    - destruct (fltb Eo Ezero); [now apply good_ok|].
      apply good_pure; [now apply dp_range_d_ok|]. intros do_ _.
      apply good_pure.
      { unfold sigma_E_of. destruct (fltb _ _).
        - dbind; [now apply dp_rs_d_ok|]. dbind; [now apply dp_rs_d_ok|]. apply defined_Ok.
        - dbind; [now apply dp_rs_ok|]. dbind; [now apply dp_rs_ok|]. apply defined_Ok. }
      intros sE _. apply good_pure.
      { destruct (Z.eqb _ _); [|apply defined_Ok]. unfold sigma_a_of. destruct (fltb _ _).
        - dbind; [now apply dp_av_d_ok|]. dbind; [now apply dp_av_d_ok|]. apply defined_Ok.
        - dbind; [now apply dp_av_ok|]. dbind; [now apply dp_av_ok|]. apply defined_Ok. }
      intros sa _. apply good_bind.
      { destruct (_ && _)%bool; [now apply angular_straggling_good|now apply good_ok]. }
      intros sa' w2 _ OW2 ED2.
      apply good_pure; [now apply tof_ok|]. intros tof _. now apply good_ok.
    - intros [[[dEdxo sE] sa] tof] w2 _ OW2 ED2.
      apply good_bind; [now apply angular_variance_good|]. intros vx w3 _ OW3 _.
      apply good_bind; [now apply angular_variance_good|]. intros cv w4 _ OW4 _.
      apply good_bind; [now apply nonreaction_rate_good|]. intros sp w5 _ OW5 _.
      now apply good_ok.
  Qed.

  (** every layer is entered and left below the end of the tables *)
  Fixpoint stays_below (p : Projectile R) (c : Config R) (layers : list (Material R)) (e : R)
           (w : world R) : Prop :=
    match layers with
    | [] => True
    | m :: layers' =>
        below_top e /\
        (forall e' w', energy_out junk (at_T p e) m c w = Ok (e', w') -> below_top e') /\
        (forall r w', calculate junk (at_T p e) m c w = Ok (r, w') ->
                      stays_below p c layers' (r_Eout r) w')
    end.

  Lemma layers_good p c layers : legit_p p -> Forall legit_t layers -> forall e tot w,
    world_ok w -> stays_below p c layers e w -> good w (layers_loop junk p c layers e tot w).
  Proof.
    intros LP. induction layers as [|m layers IH]; intros LT e tot w W B; simpl.
    - now apply good_ok.
    - inversion LT; subst. destruct B as (B1 & B2 & B3).
      apply good_bind; [apply calculate_good; auto|]. intros r w' E OW ED.
      apply good_bind; [apply IH; eauto|].
      intros [[rs e'] tot'] w2 _ OW2 _. now apply good_ok.
  Qed.
End Total.
