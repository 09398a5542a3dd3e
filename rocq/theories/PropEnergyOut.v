(** * Properties C08-C11: outgoing energy *)
From Coq Require Import ZArith Reals List Bool Lra Lia.
From Verif Require Import Num NumR Structures EnergyTable Spline Integrator Calculations NucData
  Reactions Storage Catima CacheProofs CacheFresh History KeyEq ApiCache BoundsProofs TotalProofs
  ApiTotal Cases EnergyOutProofs.
Import ListNotations.
Local Open Scope R_scope.

(** ** C08 *)

(** In any arithmetic the result is determined by at most 102 values of the range function (the
    range at T and 101 residuals) and at most 102 values of its derivative. *)
Theorem C08_budget {F} {N : Num F} (rng drv : F -> outcome F) T th :
  exists lr ld, (length lr <= 102)%nat /\ (length ld <= 102)%nat /\
    forall rng' drv', (forall x, In x lr -> rng x = rng' x) -> (forall x, In x ld -> drv x = drv' x) ->
      energy_out_fn rng' drv' T th = energy_out_fn rng drv T th.
Proof. apply energy_out_support. Qed.
Print Assumptions C08_budget.

Theorem C08_class (rng drv : R -> outcome R) T th x :
  energy_out_fn rng drv T th = Ok x ->
  exists rT, rng T = Ok rT /\
    ((rT <= th /\ x = 0) \/
     (th < rT /\ (x = 0 \/ x = -1 \/ exists rx, rng x = Ok rx /\ Rabs (rT - rx - th) < 1 / 100000))).
Proof. apply energy_out_class. Qed.
Print Assumptions C08_class.

Theorem C08_stopped (rng drv : R -> R) T th :
  rng T <= th -> energy_out_fn (fun x => Ok (rng x)) (fun x => Ok (drv x)) T th = Ok 0.
Proof.
  intros H. unfold energy_out_fn. cbn [bind]. cbv zeta. numR. destruct (Rleb_spec (rng T) th); [|lra].
  f_equal. dec_norm. lra.
Qed.
Print Assumptions C08_stopped.

(** which of the three, in terms of the Newton sequence *)
Theorem C08_iterates (rng drv : R -> R) T th :
  (forall x, 0 < drv x) -> th < rng T ->
  let e := iterate rng drv T th in
  let res := residual rng T th in
  let result := energy_out_fn (fun x => Ok (rng x)) (fun x => Ok (drv x)) T th in
  (exists n, (n <= 100)%nat /\
     (forall m, (m < n)%nat -> 1 / 100000 <= Rabs (res (e m)) /\ 1 / 1000 <= e (S m)) /\
     ((Rabs (res (e n)) < 1 / 100000 /\ result = Ok (e n)) \/
      (1 / 100000 <= Rabs (res (e n)) /\ e (S n) < 1 / 1000 /\ result = Ok 0))) \/
  ((forall m, (m <= 100)%nat -> 1 / 100000 <= Rabs (res (e m)) /\ 1 / 1000 <= e (S m)) /\
   result = Ok (-1)).
Proof.
  intros _ L. cbv zeta. rewrite energy_out_start by assumption.
  exact (newton_iterates rng drv T th 100 0).
Qed.
Print Assumptions C08_iterates.

Lemma self_key_R (p : Projectile R) t c : self_key p t c.
Proof.
  unfold self_key. rewrite proj_eqb_R, mat_eqb_R, config_eqb_R, !Rminus_eq_0, Rabs_R0.
  repeat split; lra.
Qed.

Lemma at_T_thickness {F} (p : Projectile F) (t : Material F) :
  p = at_T p (pT p) /\ t = set_thickness t (m_th t).
Proof. destruct p, t. auto. Qed.

Lemma exec_all_wf {F} {N : Num F} (junk : nat -> F * F) h w : exec_all junk h world0 = Ok w -> wf w.
Proof.
  intros E. destruct (exec_all_history junk h world0 w E) as (ops & _ & Hrun).
  exact (run_wf junk calculate_DataPoint ops world0 w wf_world0 Hrun).
Qed.

(** the library calls: after any history, energy_out against range *)
Theorem C08_api (junk : nat -> R * R) h w p t c e w' :
  exec_all junk h world0 = Ok w ->
  energy_out junk p t c w = Ok (e, w') ->
  exists rT, range junk p t c w' = Ok (rT, w') /\
    ((rT <= m_th t /\ e = 0) \/
     (m_th t < rT /\
      (e = 0 \/ e = -1 \/
       exists re, range junk (at_T p e) t c w' = Ok (re, w') /\
                  Rabs (rT - re - m_th t) < 1 / 100000))).
Proof.
  intros E H. apply exec_all_wf in E. unfold energy_out in H. apply bind_ok in H.
  destruct H as ([d w1] & L & H). apply bind_ok in H. destruct H as (e' & H & H'). inversion H'; subst.
  clear H'. apply C08_class in H. destruct H as (rT & HT & H).
  assert (LA : forall x, lookup junk (at_T p x) t c w' = Ok (d, w')).
  { intros x. destruct (at_T_thickness p t) as (_ & ET). rewrite ET.
    apply (lookup_again junk w p t c d w' x (m_th t) E (self_key_R p t c) L). }
  assert (RA : forall x, range junk (at_T p x) t c w' =
                         (r <- interp_eval (dp_range_spline d) x ;; Ok (r, w'))).
  { intros x. unfold range. rewrite LA. cbn [bind at_T pT]. reflexivity. }
  exists rT. split.
  - destruct (at_T_thickness p t) as (EP & _). rewrite EP, RA, HT. reflexivity.
  - destruct H as [H|(H1 & [H|[H|(re & H & B)]])]; auto 6.
    right. split; auto. right. right. exists re. rewrite RA, H. split; [reflexivity|assumption].
Qed.
Print Assumptions C08_api.

(** the hypotheses are met: 300 MeV/u carbon through water, after six other calls *)
Example C08_case : exists w e w',
  exec_all junk0 history1 world0 = Ok w /\ energy_out junk0 (carbon 300) (water 2) conf w = Ok (e, w').
Proof.
  destruct history1_total as (w & E & O).
  destruct (energy_out_good junk0 (carbon 300) (water 2) conf w) as (e & w' & H & _); auto with cases.
  exists w, e, w'. auto.
Qed.

(** a range function where one correction is needed: the result is the second iterate *)
Example C08_case_iterates :
  let rng x := x * x in let drv x := 2 * Rmax x (1 / 1000) in
  (forall x, 0 < drv x) /\ 1 < rng 10 /\
  exists e, iterate rng drv 10 1 1 = e /\ 9949 / 1000 < e < 9950 / 1000.
Proof.
  cbv zeta. split; [|split].
  - intros x. pose proof (Rmax_r x (1 / 1000)). lra.
  - lra.
  - eexists. split; [reflexivity|]. cbn [iterate]. unfold residual.
    rewrite Rmax_left by lra. lra.
Qed.

(** ** C09 *)
Theorem C09_corrected (rng drv : R -> R) T th x :
  (forall x, 0 < drv x) -> th < rng T ->
  1 / 100000 <= Rabs (rng T - rng (T - th / drv T) - th) ->
  energy_out_fn (fun x => Ok (rng x)) (fun x => Ok (drv x)) T th = Ok x ->
  x = 0 \/ x = -1 \/ 1 / 1000 <= x.
Proof.
  intros D L C H.
  destruct (C08_iterates rng drv T th D L) as [(n & _ & Hn & [(Hr & HH)|(_ & _ & HH)])|(_ & HH)];
    rewrite HH in H; inversion H; subst; auto.
  right. right. destruct n as [|n].
  - exfalso. cbn [iterate] in Hr. unfold residual in Hr. lra.
  - apply Hn. lia.
Qed.
Print Assumptions C09_corrected.

Lemma exp_lower x n : 0 <= x -> (1 + x) ^ n <= exp (x * INR n).
Proof.
  intros H. induction n as [|n IH]; [simpl; rewrite Rmult_0_r, exp_0; lra|].
  rewrite S_INR, Rmult_plus_distr_l, Rmult_1_r, exp_plus. simpl. rewrite Rmult_comm.
  apply Rmult_le_compat; try lra; auto; [apply pow_le; lra|].
  pose proof (exp_ineq1_le x). lra.
Qed.
Lemma exp_upper x : 0 <= x < 1 -> exp x <= / (1 - x).
Proof.
  intros H. pose proof (exp_ineq1_le (- x)) as E. rewrite exp_Ropp in E.
  pose proof (exp_pos x). rewrite <- (Rinv_inv (exp x)). apply Rinv_le_contravar; lra.
Qed.
Lemma ln_11_10 : 90 / 1000 < ln (11 / 10) < 96 / 1000.
Proof.
  split; apply exp_lt_inv; rewrite exp_ln by lra.
  - apply Rle_lt_trans with (/ (1 - 90 / 1000)); [apply exp_upper; lra|].
    apply Rmult_lt_reg_l with (1 - 90 / 1000); [lra|]. rewrite Rinv_r; lra.
  - apply Rlt_le_trans with ((1 + 12 / 1000) ^ 8); [lra|].
    apply Rle_trans with (exp (12 / 1000 * INR 8)); [apply exp_lower; lra|].
    right. f_equal. simpl. lra.
Qed.

(** a strictly increasing, differentiable range function that is 0 at 1e-3 MeV/u, and an energy and
    a thickness for which the returned outgoing energy is negative *)
Theorem C09_first_iterate_refuted :
  exists (rng drv : R -> R) T th e,
    (forall x, derivable_pt_lim rng x (drv x)) /\ (forall x, 0 < drv x) /\
    (forall x y, x < y -> rng x < rng y) /\ rng (1 / 1000) = 0 /\
    1 / 1000 < T /\ 0 < th < rng T /\
    energy_out_fn (fun x => Ok (rng x)) (fun x => Ok (drv x)) T th = Ok e /\ e < 0.
Proof.
  set (rng := fun x => (1 - exp (1 / 1000 - x)) / 1000).
  set (drv := fun x => exp (1 / 1000 - x) / 1000).
  set (u := ln (11 / 10)). set (T := 1 / 1000 + u).
  set (th := (1 / 11 - 1 / 1000) / 1000).
  pose proof ln_11_10 as Hu. fold u in Hu.
  assert (EU : exp (- u) = 10 / 11).
  { unfold u. rewrite exp_Ropp, exp_ln by lra. field. }
  assert (RT : rng T = (1 / 11) / 1000).
  { unfold rng, T. replace (1 / 1000 - (1 / 1000 + u)) with (- u) by ring. rewrite EU. field. }
  assert (DT : drv T = 10 / 11 / 1000).
  { unfold drv, T. replace (1 / 1000 - (1 / 1000 + u)) with (- u) by ring. now rewrite EU. }
  exists rng, drv, T, th, (iterate rng drv T th 0).
  assert (E0 : iterate rng drv T th 0 = 1 / 1000 + u - 989 / 10000).
  { cbn [iterate]. rewrite DT. unfold T, th. lra. }
  assert (DP : forall x, 0 < drv x) by (intros x; unfold drv; pose proof (exp_pos (1 / 1000 - x)); lra).
  assert (TL : th < rng T) by (rewrite RT; unfold th; lra).
  split; [|split; [exact DP|split; [|split; [|split; [|split; [|split]]]]]].
  - intros x. unfold rng, drv.
    replace (exp (1 / 1000 - x) / 1000) with ((0 - exp (1 / 1000 - x) * (0 - 1)) * (/ 1000) + (1 - exp (1 / 1000 - x)) * 0) by lra.
    apply (derivable_pt_lim_mult (fun x => 1 - exp (1 / 1000 - x)) (fun _ => / 1000)).
    + apply (derivable_pt_lim_minus (fun _ => 1) (fun x => exp (1 / 1000 - x))).
      * apply derivable_pt_lim_const.
      * apply (derivable_pt_lim_comp (fun x => 1 / 1000 - x) exp).
        -- apply (derivable_pt_lim_minus (fun _ => 1 / 1000) (fun x => x)).
           ++ apply derivable_pt_lim_const.
           ++ apply derivable_pt_lim_id.
        -- apply derivable_pt_lim_exp.
    + apply derivable_pt_lim_const.
  - intros x y H. unfold rng. pose proof (exp_increasing (1 / 1000 - y) (1 / 1000 - x)). lra.
  - unfold rng. rewrite Rminus_eq_0, exp_0. lra.
  - unfold T. lra.
  - split; [unfold th; lra|assumption].
  - rewrite energy_out_start by assumption.
    pose proof (newton_step rng drv T th 100 0) as NS. cbv iota in NS. rewrite NS. clear NS.
    assert (RES : Rabs (residual rng T th (iterate rng drv T th 0)) < 1 / 100000).
    { unfold residual. rewrite RT, E0. unfold th, rng.
      replace (1 / 1000 - (1 / 1000 + u - 989 / 10000)) with (989 / 10000 - u) by ring.
      assert (B : exp (989 / 10000 - u) <= / (1 - (989 / 10000 - u))) by (apply exp_upper; lra).
      assert (B2 : / (1 - (989 / 10000 - u)) <= / (1 - 89 / 10000)) by (apply Rinv_le_contravar; lra).
      assert (B3 : / (1 - 89 / 10000) < 1 + 8981 / 1000000).
      { apply Rmult_lt_reg_l with (1 - 89 / 10000); [lra|]. rewrite Rinv_r; lra. }
      pose proof (exp_ineq1_le (989 / 10000 - u)).
      rewrite Rabs_pos_eq; lra. }
    destruct (Rltb_spec (Rabs (residual rng T th (iterate rng drv T th 0))) (1 / 100000)); [|contradiction].
    reflexivity.
  - rewrite E0. lra.
Qed.
Print Assumptions C09_first_iterate_refuted.

(** the corrected case is not empty: x*x, T = 2, thickness 1 needs corrections *)
Example C09_case :
  let rng x := x * x in let drv x := 2 * Rmax x (1 / 1000) in
  (forall x, 0 < drv x) /\ 1 < rng 2 /\
  1 / 100000 <= Rabs (rng 2 - rng (2 - 1 / drv 2) - 1) /\
  exists x, energy_out_fn (fun x => Ok (rng x)) (fun x => Ok (drv x)) 2 1 = Ok x.
Proof.
  cbv zeta. split; [|split; [lra|split]].
  - intros x. pose proof (Rmax_r x (1 / 1000)). lra.
  - rewrite Rmax_left by lra. rewrite Rabs_left; lra.
  - destruct (energy_out_fn_defined (fun x => Ok (x * x)) (fun x => Ok (2 * Rmax x (1 / 1000))) 2 1) as (x & H);
      try (intros; eexists; reflexivity). eauto.
Qed.

(** ** C10 *)

(** a particle of energy T leaves the layers [ths] with energy e, stopped in none of them *)
Inductive passes (rng drv : R -> outcome R) : R -> list R -> R -> Prop :=
| passes_none T : passes rng drv T [] T
| passes_layer T th ths e e' :
    energy_out_fn rng drv T th = Ok e -> e <> 0 -> e <> -1 ->
    passes rng drv e ths e' -> passes rng drv T (th :: ths) e'.

Definition total (ths : list R) : R := fold_right Rplus 0 ths.

Theorem C10_split (rng drv : R -> outcome R) T ths e :
  passes rng drv T ths e -> ths <> [] ->
  exists rT re, rng T = Ok rT /\ rng e = Ok re /\
    Rabs (rT - re - total ths) < INR (length ths) * (1 / 100000).
Proof.
  intros P. induction P as [T|T th ths e e' H E0 E1 P IH]; intros NE; [contradiction|].
  apply C08_class in H. destruct H as (rT & HT & [(_ & H)|(_ & [H|[H|(re & He & B)]])]); try contradiction.
  destruct ths as [|th' ths].
  - inversion P; subst. exists rT, re. split; [assumption|]. split; [assumption|]. simpl.
    replace (rT - re - (th + 0)) with (rT - re - th) by ring. lra.
  - destruct IH as (re2 & re' & He2 & He' & B'); [discriminate|].
    rewrite He in He2. inversion He2; subst re2. exists rT, re'. split; [assumption|]. split; [assumption|].
    change (length (th :: th' :: ths)) with (S (length (th' :: ths))). rewrite S_INR.
    change (total (th :: th' :: ths)) with (th + total (th' :: ths)).
    set (s := total (th' :: ths)) in *. set (n := INR (length (th' :: ths))) in *.
    replace (rT - re' - (th + s)) with ((rT - re - th) + (re - re' - s)) by ring.
    pose proof (Rabs_triang (rT - re - th) (re - re' - s)). lra.
Qed.
Print Assumptions C10_split.

Theorem C10_split_unsplit (rng drv : R -> outcome R) T ths e e1 :
  passes rng drv T ths e -> ths <> [] -> passes rng drv T [total ths] e1 ->
  exists re r1, rng e = Ok re /\ rng e1 = Ok r1 /\
    Rabs (re - r1) < (INR (length ths) + 1) * (1 / 100000).
Proof.
  intros P NE P1.
  destruct (C10_split _ _ _ _ _ P NE) as (rT & re & HT & He & B).
  destruct (C10_split _ _ _ _ _ P1 ltac:(discriminate)) as (rT' & r1 & HT' & H1 & B1).
  rewrite HT in HT'. inversion HT'; subst rT'. exists re, r1. split; [assumption|]. split; [assumption|].
  unfold total at 1 in B1. cbn [fold_right length] in B1. rewrite Rplus_0_r in B1.
  change (INR 1) with 1 in B1.
  replace (re - r1) with ((rT - r1 - total ths) + - (rT - re - total ths)) by ring.
  pose proof (Rabs_triang (rT - r1 - total ths) (- (rT - re - total ths))) as X. rewrite Rabs_Ropp in X. lra.
Qed.
Print Assumptions C10_split_unsplit.

(** in energy: the difference is bounded through the smallest slope s of the range *)
Theorem C10_energy (rng drv : R -> R) s T ths e e1 :
  0 < s -> (forall x y, x <= y -> s * (y - x) <= rng y - rng x) ->
  passes (fun x => Ok (rng x)) (fun x => Ok (drv x)) T ths e -> ths <> [] ->
  passes (fun x => Ok (rng x)) (fun x => Ok (drv x)) T [total ths] e1 ->
  Rabs (e - e1) < (INR (length ths) + 1) * (1 / 100000) / s.
Proof.
  intros S M P NE P1. destruct (C10_split_unsplit _ _ _ _ _ _ P NE P1) as (re & r1 & He & H1 & B).
  inversion He; subst re. inversion H1; subst r1.
  apply Rmult_lt_reg_r with s; [assumption|].
  replace ((INR (length ths) + 1) * (1 / 100000) / s * s) with ((INR (length ths) + 1) * (1 / 100000))
    by (field; lra).
  eapply Rle_lt_trans; [|exact B]. destruct (Rle_or_lt e1 e) as [L|L].
  - pose proof (M e1 e L). rewrite !Rabs_pos_eq; try lra. nra.
  - pose proof (M e e1 ltac:(lra)). rewrite !Rabs_left1; try lra. nra.
Qed.
Print Assumptions C10_energy.

(** the library calls: energy_out for layer after layer of one material, after any history *)
Inductive passes_api (junk : nat -> R * R) (p : Projectile R) (t : Material R) (c : Config R)
  : world R -> R -> list R -> R -> world R -> Prop :=
| pa_none w T : passes_api junk p t c w T [] T w
| pa_layer w T th ths e e' w1 w' :
    energy_out junk (at_T p T) (set_thickness t th) c w = Ok (e, w1) -> e <> 0 -> e <> -1 ->
    passes_api junk p t c w1 e ths e' w' -> passes_api junk p t c w T (th :: ths) e' w'.

Theorem C10_api (junk : nat -> R * R) h w p t c T ths e w' :
  exec_all junk h world0 = Ok w ->
  passes_api junk p t c w T ths e w' -> ths <> [] ->
  exists rT re, range junk (at_T p T) t c w' = Ok (rT, w') /\ range junk (at_T p e) t c w' = Ok (re, w') /\
    Rabs (rT - re - total ths) < INR (length ths) * (1 / 100000).
Proof.
  intros E P NE. apply exec_all_wf in E.
  destruct ths as [|th ths]; [contradiction|]. inversion P; subst.
  match goal with H : energy_out _ _ _ _ _ = _ |- _ => rename H into HE end.
  pose proof HE as HE'. unfold energy_out in HE. apply bind_ok in HE. destruct HE as ([d w2] & L & HE).
  apply bind_ok in HE. destruct HE as (x & HE & Q). inversion Q; subst. clear Q.
  destruct (lookup_again junk w (at_T p T) (set_thickness t th) c d w1 (pT p) (m_th t) E
              (self_key_R _ _ _) L) as (L1 & W1).
  replace (at_T (at_T p T) (pT p)) with p in L1 by (destruct p; reflexivity).
  replace (set_thickness (set_thickness t th) (m_th t)) with t in L1 by (destruct t; reflexivity).
  assert (Y : forall ths T e w', passes_api junk p t c w1 T ths e w' -> w' = w1 /\
      passes (interp_eval (dp_range_spline d)) (interp_deriv (dp_range_spline d)) T ths e).
  { clear - L1 W1. induction ths as [|th ths IH]; intros T e w' P; inversion P; subst.
    - split; auto. constructor.
    - rename H1 into HE. unfold energy_out in HE.
      destruct (lookup_again junk w1 p t c d w1 T th W1 (self_key_R p t c) L1) as (L2 & _).
      rewrite L2 in HE. cbn [bind] in HE. apply bind_ok in HE. destruct HE as (x & HE & Q).
      injection Q as Q1 Q2. rewrite <- Q2 in H8. destruct (IH _ _ _ H8) as (Ew & P'). split; auto.
      subst x. eapply passes_layer; [exact HE|assumption|assumption|exact P']. }
  match goal with H : passes_api _ _ _ _ w1 _ ths _ _ |- _ => destruct (Y _ _ _ _ H) as (-> & P') end.
  assert (PP : passes (interp_eval (dp_range_spline d)) (interp_deriv (dp_range_spline d)) T (th :: ths) e).
  { eapply passes_layer; [exact HE|assumption|assumption|exact P']. }
  destruct (C10_split _ _ _ _ _ PP NE) as (rT & re & HT & He & B).
  assert (RA : forall x, range junk (at_T p x) t c w1 =
                         (r <- interp_eval (dp_range_spline d) x ;; Ok (r, w1))).
  { intros y. destruct (lookup_again junk w1 p t c d w1 y (m_th t) W1 (self_key_R p t c) L1) as (L2 & _).
    replace (set_thickness t (m_th t)) with t in L2 by (destruct t; reflexivity).
    unfold range. rewrite L2. reflexivity. }
  exists rT, re. rewrite !RA, HT, He. split; [reflexivity|]. split; [reflexivity|assumption].
Qed.
Print Assumptions C10_api.

(** two layers of 1 and 2 with range(E) = E *)
Example C10_case : passes (fun x => Ok x) (fun _ => Ok 1) 10 [1; 2] 7 /\
                   passes (fun x => Ok x) (fun _ => Ok 1) 10 [total [1; 2]] 7.
Proof.
  assert (X : forall T th, th < T -> energy_out_fn (fun x => Ok x) (fun _ => Ok 1) T th = Ok (T - th)).
  { intros T th H. rewrite (energy_out_start (fun x => x) (fun _ => 1) T th H).
    pose proof (newton_step (fun x => x) (fun _ => 1) T th 100 0) as NS. cbv iota in NS. rewrite NS.
    unfold residual. cbn [iterate]. replace (T - (T - th / 1) - th) with 0 by field. rewrite Rabs_R0.
    destruct (Rltb_spec 0 (1 / 100000)); [|lra]. f_equal. field. }
  split.
  - econstructor; [apply X; lra|lra|lra|]. econstructor; [apply X; lra|lra|lra|].
    replace (10 - 1 - 2) with 7 by lra. constructor.
  - econstructor; [apply X; unfold total; simpl; lra|unfold total; simpl; lra|unfold total; simpl; lra|].
    replace (10 - total [1; 2]) with 7 by (unfold total; simpl; lra). constructor.
Qed.

(** ** C11 *)
Theorem C11_energy_out {F} {N : Num F} (junk : nat -> F * F) h w p l t c l' w' :
  exec_all junk h world0 = Ok w ->
  energy_out_v junk p l t c w = Ok (l', w') ->
  length l' = length l /\
  forall i e, nth_error l i = Some e ->
    exists y, nth_error l' i = Some y /\
      (if fltb e Ezero then y = lit 0.0
       else omap fst (energy_out junk (at_T p e) t c w) = Ok y).
Proof.
  intros E H. apply exec_all_wf in E. unfold energy_out_v in H. apply bind_ok in H.
  destruct H as ([d w1] & L & H). apply bind_ok in H. destruct H as (l2 & M & H). inversion H; subst.
  split; [eapply omapM_length; exact M|]. intros i e HI.
  destruct (omapM_nth _ _ _ _ _ M HI) as (y & Hy & HF). exists y. split; [assumption|].
  destruct (fltb e Ezero); [congruence|].
  pose proof (lookup_T junk w p e (m_th t) t c E) as S.
  destruct (at_T_thickness p t) as (_ & ET). rewrite <- ET in S. rewrite L in S.
  unfold energy_out. destruct (lookup junk (at_T p e) t c w) as [[d2 w2]|]; [|contradiction].
  cbn [osim fst] in S. cbn [bind]. destruct S as (_ & _ & _ & <- & _).
  cbn [pT at_T]. rewrite HF. reflexivity.
Qed.
Print Assumptions C11_energy_out.

Theorem C11_dedx {F} {N : Num F} (junk : nat -> F * F) h w p l t c l' w' :
  exec_all junk h world0 = Ok w ->
  dedx_from_range_v junk p l t c w = Ok (l', w') ->
  length l' = length l /\
  forall i e, nth_error l i = Some e ->
    exists y, nth_error l' i = Some y /\
      (if fltb e Ezero then y = lit 0.0
       else omap fst (dedx_from_range junk (at_T p e) t c w) = Ok y).
Proof.
  intros E H. apply exec_all_wf in E. unfold dedx_from_range_v in H. apply bind_ok in H.
  destruct H as ([d w1] & L & H). apply bind_ok in H. destruct H as (l2 & M & H). inversion H; subst.
  split; [eapply omapM_length; exact M|]. intros i e HI.
  destruct (omapM_nth _ _ _ _ _ M HI) as (y & Hy & HF). exists y. split; [assumption|].
  destruct (fltb e Ezero); [congruence|].
  pose proof (lookup_T junk w p e (m_th t) t c E) as S.
  destruct (at_T_thickness p t) as (_ & ET). rewrite <- ET in S. rewrite L in S.
  unfold dedx_from_range. destruct (lookup junk (at_T p e) t c w) as [[d2 w2]|]; [|contradiction].
  cbn [osim fst] in S. cbn [bind]. destruct S as (_ & _ & _ & <- & _).
  cbn [pT at_T pA]. apply bind_ok in HF. destruct HF as (r & HR & HF). rewrite HR. cbn [bind omap fst].
  exact HF.
Qed.
Print Assumptions C11_dedx.

(** for the reals the threshold is 1e-3 and the exceptional value 0 *)
Theorem C11_threshold (x : R) : (fltb x Ezero = true <-> x < 1 / 1000) /\ (lit 0.0 : R) = 0.
Proof. rewrite Ezero_R. numR. split; [apply Rltb_true|dec_norm; lra]. Qed.
Print Assumptions C11_threshold.

Example C11_case : exists w l w',
  exec_all junk0 history1 world0 = Ok w /\
  energy_out_v junk0 (carbon 300) [100; 1 / 2000; 300] (water 2) conf w = Ok (l, w').
Proof.
  destruct history1_total as (w & E & O).
  destruct (energy_out_v_good junk0 (carbon 300) (water 2) conf w) with (l := [100; 1 / 2000; 300])
    as (e & w' & H & _); auto with cases.
  exists w, e, w'. auto.
Qed.
