(** * The cache is unobservable (support for C01)

    For arbitrary arithmetic.  [K] is the set of keys used by the program, [K_exact] says that the
    library's == on such keys is real equality of the fields the tables depend on. *)
From Coq Require Import ZArith List Bool Lia Arith.
From Verif Require Import Num Structures EnergyTable Spline Integrator Calculations NucData
  Reactions Storage CacheProofs Catima.
Import ListNotations.

(** outcomes related by R on values; equal kinds of undefined behaviour *)
Definition osim {A B} (R : A -> B -> Prop) (x : outcome A) (y : outcome B) : Prop :=
  match x, y with
  | Ok a, Ok b => R a b
  | UB u, UB v => u = v
  | _, _ => False
  end.

Lemma osim_bind {A B C D} (R : A -> B -> Prop) (S : C -> D -> Prop) x y f g :
  osim R x y -> (forall a b, R a b -> osim S (f a) (g b)) -> osim S (bind x f) (bind y g).
Proof. destruct x, y; simpl; intros H1 H2; auto; try contradiction. Qed.

Lemma osim_refl {A} (R : A -> A -> Prop) x : (forall a, R a a) -> osim R x x.
Proof. destruct x; simpl; auto. Qed.

(** same pure computation on both sides *)
Lemma osim_same {A C D} (S : C -> D -> Prop) (x : outcome A) f g :
  (forall a, osim S (f a) (g a)) -> osim S (bind x f) (bind x g).
Proof. destruct x; simpl; auto. Qed.

Section Fresh.
  Context {F : Type} {N : Num F}.
  Variable junk : nat -> F * F.
  Hypothesis junk_const : forall k, junk k = junk 0%nat.

  (** the fields on which the range and straggling tables depend *)
  Definition same_data (p : Projectile F) (t : Material F) (c : Config F)
             (p' : Projectile F) (t' : Material F) (c' : Config F) : Prop :=
    pA p = pA p' /\ pZ p = pZ p' /\ pQ p = pQ p' /\
    m_M t = m_M t' /\ m_I t = m_I t' /\ m_atoms t = m_atoms t' /\
    c_zeff c = c_zeff c' /\ c_corr c = c_corr c' /\ c_calc c = c_calc c' /\
    c_low c = c_low c' /\ c_scat c = c_scat c'.

  Lemma dedx_same p t c p' t' c' x : same_data p t c p' t' c' ->
    dedx (at_T p x) t c = dedx (at_T p' x) t' c'.
  Proof.
    destruct p, t, c, p', t', c'. unfold same_data; simpl.
    intros (-> & -> & -> & -> & -> & -> & -> & -> & -> & -> & ->). reflexivity.
  Qed.

  Lemma domega_same p t c p' t' c' x : same_data p t c p' t' c' ->
    domega2dx (at_T p x) t c = domega2dx (at_T p' x) t' c'.
  Proof.
    destruct p, t, c, p', t', c'. unfold same_data; simpl.
    intros (-> & -> & -> & -> & -> & -> & -> & -> & -> & -> & ->). reflexivity.
  Qed.

  Lemma gl_pairs_ext nodes (f g : F -> outcome F) p q r : (forall x, f x = g x) ->
    gl_pairs nodes f p q r = gl_pairs nodes g p q r.
  Proof.
    intros H; revert r; induction nodes as [|[x w] l IH]; intros r; simpl; auto.
    rewrite !H. destruct (g _); simpl; auto. destruct (g _); simpl; auto.
  Qed.

  Lemma integrate_ext (f g : F -> outcome F) a b : (forall x, f x = g x) ->
    integrate f a b = integrate g a b.
  Proof.
    intros H. unfold integrate, gl_integrate. simpl Nat.odd. cbv iota.
    now rewrite (gl_pairs_ext _ f g) by assumption.
  Qed.

  Lemma accumulate_ext (s1 s2 : F -> F -> outcome F) : (forall x y, s1 x y = s2 x y) ->
    forall l lo prev, accumulate s1 lo l prev = accumulate s2 lo l prev.
  Proof.
    intros H. induction l as [|hi l IH]; intros lo prev; simpl; auto.
    rewrite H. destruct (s2 lo hi); simpl; auto. now rewrite IH.
  Qed.

  Lemma table_ext (s1 s2 : F -> F -> outcome F) g : (forall x y, s1 x y = s2 x y) ->
    table s1 g = table s2 g.
  Proof. intros H. destruct g; simpl; auto. now rewrite (accumulate_ext _ _ H). Qed.

  Lemma range_table_same p t c p' t' c' : same_data p t c p' t' c' ->
    range_table p t c = range_table p' t' c'.
  Proof.
    intros S. unfold range_table. apply table_ext. intros x y. unfold scaled_integral.
    rewrite (integrate_ext (fdedx p t c) (fdedx p' t' c')).
    - destruct S as (-> & _). reflexivity.
    - intros z. unfold fdedx. now rewrite (dedx_same _ _ _ _ _ _ z S).
  Qed.

  Lemma straggling_table_same p t c p' t' c' : same_data p t c p' t' c' ->
    straggling_table p t c = straggling_table p' t' c'.
  Proof.
    intros S. unfold straggling_table. apply table_ext. intros x y. unfold scaled_integral.
    rewrite (integrate_ext (fomega p t c) (fomega p' t' c')).
    - destruct S as (-> & _). reflexivity.
    - intros z. unfold fomega. now rewrite (dedx_same _ _ _ _ _ _ z S), (domega_same _ _ _ _ _ _ z S).
  Qed.

  Lemma da2dx_same p t c p' t' c' x : same_data p t c p' t' c' ->
    exists a, da2dx (at_T p x) t c = (r <- a ;; Ok (fmul (c_sfac c) r)) /\
              da2dx (at_T p' x) t' c' = (r <- a ;; Ok (fmul (c_sfac c') r)).
  Proof.
    destruct p, t, c, p', t', c'. unfold same_data; simpl.
    intros (-> & -> & -> & -> & -> & -> & -> & -> & -> & -> & ->).
    unfold da2dx. eexists. split; [reflexivity|]. reflexivity.
  Qed.

  Lemma angular_table_same p t c p' t' c' : same_data p t c p' t' c' -> c_sfac c = c_sfac c' ->
    angular_table p t c = angular_table p' t' c'.
  Proof.
    intros S SF. unfold angular_table. apply table_ext. intros x y. unfold scaled_integral.
    rewrite (integrate_ext (ftheta p t c) (ftheta p' t' c')).
    - destruct S as (-> & _). reflexivity.
    - intros z. unfold ftheta, da2de. rewrite (dedx_same _ _ _ _ _ _ z S).
      destruct (da2dx_same _ _ _ _ _ _ z S) as (a & -> & ->). now rewrite SF.
  Qed.

  (** whether the angular table is defined, and its length, do not depend on the factor *)
  Definition shape {A B} : A -> B -> Prop := fun _ _ => True.
  Lemma gl_pairs_shape nodes (f g : F -> outcome F) p q r r' : (forall x, osim shape (f x) (g x)) ->
    osim shape (gl_pairs nodes f p q r) (gl_pairs nodes g p q r').
  Proof.
    intros H; revert r r'; induction nodes as [|[x w] l IH]; intros r r'; simpl.
    - exact I.
    - eapply osim_bind; [apply H|]. intros f1 g1 _. eapply osim_bind; [apply H|].
      intros f2 g2 _. apply IH.
  Qed.
  Lemma accumulate_shape (s1 s2 : F -> F -> outcome F) : (forall x y, osim shape (s1 x y) (s2 x y)) ->
    forall l lo prev prev', osim (fun a b => length a = length b)
      (accumulate s1 lo l prev) (accumulate s2 lo l prev').
  Proof.
    intros H. induction l as [|hi l IH]; intros lo prev prev'; simpl; auto.
    eapply osim_bind; [apply H|]. intros a b _. cbv zeta.
    eapply osim_bind; [apply IH|]. intros a' b' E; simpl in *. congruence.
  Qed.
  Lemma angular_table_shape p t c p' t' c' : same_data p t c p' t' c' ->
    osim (fun a b => length a = length b) (angular_table p t c) (angular_table p' t' c').
  Proof.
    intros S. unfold angular_table, table. destruct (et_values energy_table) as [|g0 rest]; [reflexivity|].
    eapply osim_bind; [apply accumulate_shape|].
    - intros x y. unfold scaled_integral. eapply (osim_bind shape).
      + unfold integrate, gl_integrate. simpl Nat.odd. cbv iota.
        eapply (osim_bind shape); [apply gl_pairs_shape|].
        * intros z. unfold ftheta, da2de. rewrite (dedx_same _ _ _ _ _ _ z S).
          destruct (da2dx_same _ _ _ _ _ _ z S) as (a & -> & ->).
          destruct a; simpl; [|reflexivity]. destruct (dedx (at_T p' z) t' c'); simpl; auto. exact I.
        * intros a b _. exact I.
      + intros a b _. exact I.
    - intros a b E. simpl. congruence.
  Qed.

  Lemma make_spline_shape t (y y' : list F) j :
    length y = length y' -> osim shape (make_spline t y j) (make_spline t y' j).
  Proof.
    intros E. unfold make_spline. rewrite E. destruct (length y' <? et_n t)%nat; [exact eq_refl|].
    unfold trig_solve, spline_rows. cbn [rd rb rc ra].
    destruct (feqb (lit 2.0) (lit 0.0)); [exact eq_refl|].
    destruct (trig_forward _ _ _ _), (trig_forward _ _ _ _); exact I.
  Qed.

  (** what a lookup returns, up to the parts it may take from an earlier key *)
  Definition same_tables (d d' : DataPoint F) : Prop :=
    dp_range d = dp_range d' /\ dp_rs d = dp_rs d' /\
    dp_range_spline d = dp_range_spline d' /\ dp_rs_spline d = dp_rs_spline d'.
  Definition same_av (d d' : DataPoint F) : Prop :=
    dp_av d = dp_av d' /\ dp_av_spline d = dp_av_spline d'.

  Notation rcalc_ := (rcalc junk calculate_DataPoint).

  Lemma rcalc_same k k' p t c p' t' c' : same_data p t c p' t' c' ->
    osim (fun d d' => same_tables d d' /\ (c_sfac c = c_sfac c' -> same_av d d'))
         (rcalc_ k p t c) (rcalc_ k' p' t' c').
  Proof.
    intros S. unfold rcalc, calculate_DataPoint.
    rewrite (range_table_same _ _ _ _ _ _ S), (straggling_table_same _ _ _ _ _ _ S).
    pose proof (angular_table_shape _ _ _ _ _ _ S) as SH.
    pose proof (angular_table_same _ _ _ _ _ _ S) as SA.
    destruct (range_table p' t' c') as [r|]; simpl; [|reflexivity].
    destruct (angular_table p t c) as [a|], (angular_table p' t' c') as [a'|]; simpl in SH |- *;
      try contradiction; [|assumption].
    destruct (straggling_table p' t' c') as [s|]; simpl; [|reflexivity].
    unfold with_splines; simpl.
    rewrite !(junk_const (_ + _)), (junk_const k), (junk_const k').
    destruct (make_spline energy_table r (junk 0)) as [s1|]; simpl; [|reflexivity].
    destruct (make_spline energy_table s (junk 0)) as [s2|]; simpl; [|reflexivity].
    pose proof (make_spline_shape energy_table a a' (junk 0) SH) as MS.
    destruct (make_spline energy_table a (junk 0)) as [s3|] eqn:E3,
             (make_spline energy_table a' (junk 0)) as [s3'|] eqn:E3'; simpl in MS |- *;
      try contradiction; [|assumption].
    split; [repeat split|]. intros SF. specialize (SA SF). inversion SA; subst a'.
    rewrite E3 in E3'. inversion E3'; subst. split; reflexivity.
  Qed.

  (** ** The keys of a program *)
  Variable K : Projectile F -> Material F -> Config F -> Prop.
  Hypothesis K_exact : forall p t c p' t' c', K p t c -> K p' t' c' ->
    proj_eqb p' p = true -> mat_eqb t' t = true -> config_eqb c' c = true ->
    same_data p t c p' t' c'.
  (** whether == also identifies the scattering factors (only needed for the angular tables) *)
  Variable exact_sfac : Prop.
  Hypothesis K_sfac : exact_sfac -> forall p t c p' t' c', K p t c -> K p' t' c' ->
    config_eqb c' c = true -> c_sfac c = c_sfac c'.

  Definition inv (w : world F) : Prop :=
    wf w /\
    Forall (fun d => d = DataPoint0 \/
                     (K (dp_p d) (dp_m d) (dp_c d) /\ computed junk calculate_DataPoint d))
           (w_slots w).

  Lemma calc_keys p t c d : calculate_DataPoint p t c = Ok d ->
    dp_p d = p /\ dp_m d = t /\ dp_c d = c.
  Proof.
    unfold calculate_DataPoint. intros H.
    apply bind_ok in H; destruct H as (r & _ & H).
    apply bind_ok in H; destruct H as (a & _ & H).
    apply bind_ok in H; destruct H as (s & _ & H). inversion H; subst; auto.
  Qed.

  Lemma inv_world0 : inv world0.
  Proof. split; [apply wf_world0|]. apply Forall_forall. intros x Hx. left. now apply repeat_spec in Hx. Qed.
  Lemma inv_reset w : inv (data_reset w).
  Proof. split; [apply wf_reset|]. apply Forall_forall. intros x Hx. left. now apply repeat_spec in Hx. Qed.

  (** key allowed, and not the all-default key *)
  Definition okkey p t c : Prop := K p t c /\ key_match p t c DataPoint0 = false.

  (** a lookup gives freshly computed tables, and keeps the invariant *)
  Lemma lookup_fresh p t c w : okkey p t c -> inv w ->
    osim (fun dw d' => same_tables (fst dw) d' /\ (exact_sfac -> same_av (fst dw) d') /\
                       inv (snd dw) /\ w_default (snd dw) = w_default w)
         (lookup junk p t c w) (rcalc_ 0 p t c).
  Proof.
    intros [HK ND] [W V]. unfold lookup.
    destruct (get_spec junk calculate_DataPoint w p t c W) as
      [(i & e & G & Hi & E & M)|(NM & [(why & R & G)|(d & R & G & E)])].
    - rewrite G; simpl. unfold slot. rewrite E; simpl.
      assert (Ie : In e (w_slots w)) by (eapply nth_error_In; eauto).
      pose proof V as V0. eapply Forall_forall in V0; [|exact Ie]. destruct V0 as [->|[KE (k & CE)]]; [congruence|].
      unfold key_match in M. apply andb_prop in M. destruct M as [M M3].
      apply andb_prop in M. destruct M as [M1 M2].
      pose proof (K_exact _ _ _ _ _ _ HK KE M1 M2 M3) as S.
      pose proof (rcalc_same 0 k _ _ _ _ _ _ S) as RS. rewrite CE in RS.
      destruct (rcalc_ 0 p t c) as [d0|]; simpl in RS |- *; [|contradiction].
      destruct RS as [(A & B & C & D) AV].
      split; [repeat split; congruence|]. split; [|split; [split; assumption|reflexivity]].
      intros X. destruct (AV (K_sfac X _ _ _ _ _ _ HK KE M3)). split; congruence.
    - rewrite G. simpl. pose proof (rcalc_same 0 (w_junk w) p t c p t c) as RS. rewrite R in RS.
      destruct (rcalc_ 0 p t c); simpl in *.
      + apply RS. unfold same_data; auto 12.
      + symmetry. apply RS. unfold same_data; auto 12.
    - rewrite G; simpl. unfold slot. rewrite E; simpl.
      pose proof (rcalc_same 0 (w_junk w) p t c p t c) as RS. rewrite R in RS.
      assert (S0 : same_data p t c p t c) by (unfold same_data; auto 12). specialize (RS S0).
      destruct (rcalc_ 0 p t c) as [d0|]; simpl in RS |- *; [|contradiction].
      destruct RS as [(A & B & C & D) AV]. destruct (AV eq_refl).
      split; [repeat split; congruence|]. split; [intros _; split; congruence|].
      split; [split; [apply (wf_inserted w d W)|]|reflexivity].
      + simpl. apply Forall_set_slot; auto. right.
        destruct (rcalc_key junk calculate_DataPoint calc_keys _ _ _ _ _ R) as (-> & -> & ->).
        split; auto. exists (w_junk w).
        destruct (rcalc_key junk calculate_DataPoint calc_keys _ _ _ _ _ R) as (-> & -> & ->). auto.
  Qed.

  (** two states that differ only in what happened before *)
  Definition alike (w w' : world F) : Prop := inv w /\ inv w' /\ w_default w = w_default w'.
  Definition res {A} (x y : A * world F) : Prop := fst x = fst y /\ alike (snd x) (snd y).
  Definition rdp (x y : DataPoint F * world F) : Prop :=
    same_tables (fst x) (fst y) /\ (exact_sfac -> same_av (fst x) (fst y)) /\
    alike (snd x) (snd y).

  Lemma lookup_alike p t c w w' : okkey p t c -> alike w w' ->
    osim rdp (lookup junk p t c w) (lookup junk p t c w').
  Proof.
    intros O (I1 & I2 & E).
    pose proof (lookup_fresh p t c w O I1) as L1. pose proof (lookup_fresh p t c w' O I2) as L2.
    destruct (lookup junk p t c w) as [[d w1]|], (lookup junk p t c w') as [[d' w1']|],
             (rcalc_ 0 p t c) as [d0|]; simpl in *; try contradiction; try congruence.
    destruct L1 as ((A1 & A2 & A3 & A4) & A5 & A6 & A7), L2 as ((B1 & B2 & B3 & B4) & B5 & B6 & B7).
    unfold rdp, same_tables, same_av, alike; simpl.
    split; [repeat split; congruence|].
    split; [|split; [assumption|split; [assumption|congruence]]].
    intros X; destruct (A5 X), (B5 X); split; congruence.
  Qed.

  Ltac look := eapply osim_bind; [apply lookup_alike; assumption|];
    intros [? ?] [? ?] ((Hr1 & Hs1 & Hr & Hs) & Hav & Hal); cbn [fst snd] in *;
    try rewrite Hr in *; try rewrite Hs in *.
  Ltac fin := apply osim_same; intros ?; split; [reflexivity | assumption].

  Lemma range_alike p t c w w' : okkey p t c -> alike w w' ->
    osim res (range junk p t c w) (range junk p t c w').
  Proof. intros O A. unfold range. look. fin. Qed.
  Lemma dedx_from_range_alike p t c w w' : okkey p t c -> alike w w' ->
    osim res (dedx_from_range junk p t c w) (dedx_from_range junk p t c w').
  Proof. intros O A. unfold dedx_from_range. look. fin. Qed.
  Lemma dedx_from_range_v_alike p l t c w w' : okkey p t c -> alike w w' ->
    osim res (dedx_from_range_v junk p l t c w) (dedx_from_range_v junk p l t c w').
  Proof. intros O A. unfold dedx_from_range_v. look. fin. Qed.
  Lemma range_straggling_alike p T t c w w' : okkey p t c -> alike w w' ->
    osim res (range_straggling junk p T t c w) (range_straggling junk p T t c w').
  Proof. intros O A. unfold range_straggling. look. fin. Qed.
  Lemma range_variance_alike p T t c w w' : okkey p t c -> alike w w' ->
    osim res (range_variance junk p T t c w) (range_variance junk p T t c w').
  Proof. intros O A. unfold range_variance. look. fin. Qed.
  Lemma domega2de_alike p T t c w w' : okkey p t c -> alike w w' ->
    osim res (domega2de junk p T t c w) (domega2de junk p T t c w').
  Proof. intros O A. unfold domega2de. look. fin. Qed.
  Lemma angular_variance_alike p t c o w w' : okkey p t c -> alike w w' ->
    osim res (angular_variance junk p t c o w) (angular_variance junk p t c o w').
  Proof. intros O A. unfold angular_variance. look. fin. Qed.
  Lemma angular_straggling_alike p t c w w' : okkey p t c -> alike w w' ->
    osim res (angular_straggling junk p t c w) (angular_straggling junk p t c w').
  Proof.
    intros O A. unfold angular_straggling. eapply osim_bind; [apply angular_variance_alike; eassumption|].
    intros [v w1] [v' w1'] [E B]; simpl in *. subst. split; simpl; auto.
  Qed.
  Hypothesis K_th : forall p t c th, okkey p t c -> okkey p (set_thickness t th) c.
  Lemma angular_straggling_from_E_alike p Tout t c w w' : okkey p t c -> alike w w' ->
    osim res (angular_straggling_from_E junk p Tout t c w) (angular_straggling_from_E junk p Tout t c w').
  Proof.
    intros O A. unfold angular_straggling_from_E. look.
    apply osim_same; intros r1. apply osim_same; intros r2. apply angular_straggling_alike; auto.
  Qed.
  Lemma energy_straggling_from_E_alike p T Tout t c w w' : okkey p t c -> alike w w' ->
    osim res (energy_straggling_from_E junk p T Tout t c w) (energy_straggling_from_E junk p T Tout t c w').
  Proof.
    intros O A. unfold energy_straggling_from_E. look.
    apply osim_same; intros r1. apply osim_same; intros r2. fin.
  Qed.
  Lemma energy_out_alike p t c w w' : okkey p t c -> alike w w' ->
    osim res (energy_out junk p t c w) (energy_out junk p t c w').
  Proof. intros O A. unfold energy_out. look. fin. Qed.
  Lemma energy_out_v_alike p l t c w w' : okkey p t c -> alike w w' ->
    osim res (energy_out_v junk p l t c w) (energy_out_v junk p l t c w').
  Proof. intros O A. unfold energy_out_v. look. fin. Qed.
  Lemma nonreaction_rate_alike p t c w w' : okkey p t c -> alike w w' ->
    osim res (nonreaction_rate junk p t c w) (nonreaction_rate junk p t c w').
  Proof.
    intros O A. unfold nonreaction_rate.
    destruct (fltb (pT p) emin_reaction); [split; auto|].
    destruct (fleb (m_th t) (lit 0.0)); [split; auto|].
    apply osim_same; intros ap. apply osim_same; intros zp. look. fin.
  Qed.
  Lemma w_magnification_alike p Ein t c w w' : okkey p t c -> alike w w' ->
    osim res (w_magnification junk p Ein t c w) (w_magnification junk p Ein t c w').
  Proof.
    intros O A. unfold w_magnification.
    destruct (_ || _)%bool; [split; auto|]. cbv zeta.
    eapply osim_bind; [apply energy_out_v_alike; eassumption|].
    intros [l w1] [l' w1'] [E B]; simpl fst in *; simpl snd in *. subst l'.
    apply osim_same; intros r0. apply osim_same; intros r1. apply osim_same; intros r2.
    destruct (_ && _)%bool; split; auto.
  Qed.

  Definition uses_table (c : Config F) : bool := Z.eqb (c_scat c) sc_atima.

  Lemma calculate_alike p t c w w' : okkey p t c -> (uses_table c = true -> exact_sfac) ->
    alike w w' -> osim res (calculate junk p t c w) (calculate junk p t c w').
  Proof.
    intros O X A. unfold calculate. cbv zeta.
    destruct (_ && _)%bool; [split; auto|].
    look. apply osim_same; intros rg. apply osim_same; intros dr. apply osim_same; intros sv.
    destruct (feqb (m_th t) (lit 0)); [split; auto|].
    apply osim_same; intros Eout.
    eapply osim_bind.
    - instantiate (1 := fun x y => fst x = fst y /\ alike (snd x) (snd y)).
      destruct (fltb Eout Ezero); [split; auto|].
      apply osim_same; intros do_. apply osim_same; intros sE.
      fold (uses_table c). destruct (uses_table c) eqn:U; simpl.
      + destruct (Hav (X eq_refl)) as [_ EA]. rewrite EA. apply osim_same; intros sa.
        destruct Hal as (I1 & I2 & ED). rewrite ED. apply osim_same; intros tof.
        split; simpl; auto. split; auto.
      + destruct (fltb (m_th t) rg).
        * eapply osim_bind; [apply angular_straggling_alike; eassumption|].
          intros [sa w2] [sa' w2'] [E B]; simpl in *; subst sa'.
          destruct B as (I1 & I2 & ED). rewrite ED. apply osim_same; intros tof.
          split; simpl; auto. split; auto.
        * simpl. destruct Hal as (I1 & I2 & ED). rewrite ED. apply osim_same; intros tof.
          split; simpl; auto. split; auto.
    - intros [[[[dEdxo sE] sa] tof] w2] [[[[dEdxo' sE'] sa'] tof'] w2'] [E B]; simpl in E, B.
      inversion E; subst; clear E.
      eapply osim_bind; [apply angular_variance_alike; eassumption|].
      intros [vx w3] [vx' w3'] [E3 B3]; simpl in *; subst vx'.
      eapply osim_bind; [apply angular_variance_alike; eassumption|].
      intros [cv w4] [cv' w4'] [E4 B4]; simpl in *; subst cv'.
      eapply osim_bind; [apply nonreaction_rate_alike; eassumption|].
      intros [sp w5] [sp' w5'] [E5 B5]; simpl in *; subst sp'.
      split; simpl; auto.
  Qed.

  Hypothesis K_T : forall p t c e, okkey p t c -> okkey (at_T p e) t c.

  Lemma layers_loop_alike p c (X : uses_table c = true -> exact_sfac) layers :
    forall e tot w w', Forall (fun m => okkey p m c) layers -> alike w w' ->
    osim res (layers_loop junk p c layers e tot w) (layers_loop junk p c layers e tot w').
  Proof.
    induction layers as [|m layers IH]; intros e tot w w' O A; simpl.
    - split; auto.
    - inversion O; subst.
      eapply osim_bind; [apply calculate_alike; [apply K_T; eassumption|assumption|eassumption]|].
      intros [r w1] [r' w1'] [E B]; simpl in *; subst r'.
      eapply osim_bind; [apply IH; eassumption|].
      intros [[[rs e'] tot'] w2] [[[rs' e''] tot''] w2'] [E2 B2]; simpl in *.
      inversion E2; subst. split; simpl; auto.
  Qed.

  Lemma calculate_layers_alike p ps layers c w w' : (uses_table c = true -> exact_sfac) ->
    Forall (fun m => okkey p m c) layers -> alike w w' ->
    osim res (calculate_layers junk p ps layers c w) (calculate_layers junk p ps layers c w').
  Proof.
    intros X O A. unfold calculate_layers.
    eapply osim_bind; [apply layers_loop_alike; eassumption|].
    intros [[[rs e] tot] w1] [[[rs' e'] tot'] w1'] [E B]; simpl in *.
    inversion E; subst. split; simpl; auto.
  Qed.
End Fresh.
