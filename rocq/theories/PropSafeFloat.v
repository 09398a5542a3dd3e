(** * Properties C38, C53 in binary64: definedness of the stopping power, the tables and the lookups

    For every libm that is accurate to four units of the last place. *)
From Flocq Require Import Core.
From Coq Require Import ZArith Reals List Bool Lra Lia Floats SpecFloat.
From Verif Require Import Num NumR NumF Structures EnergyTable Spline Integrator Calculations Storage Catima DataQuadrature GridProofs InterpProofs BoundsProofs TotalProofs CacheProofs BoundsAny
  DataLSa DataLSahi DataLSXa DataLSXahi PropTables Binary64 Binary64Num PropGridFloat PropSplineFloat PropTableFloat PropLindhardFloat.
Import ListNotations.
Local Open Scope R_scope.

(** ** Energies at which the lookups are unproblematic *)
Definition infinite (v : float) : Prop := exists s, Prim2SF v = S754_infinity s.
(** the last energy of the tables, about 1e7 MeV/u *)
Definition table_end : R := exp (LN10_ (F:=R) * 7).
(** an energy that is infinite, or finite and not within a few 1e-11 (relatively) of the end of the tables *)
Definition clear_of_end (v : float) : Prop :=
  infinite v \/ fin v /\ (val v < table_end * (1 - 2 / 10 ^ 11) \/ table_end * (1 + 1 / 10 ^ 13) <= val v).

Lemma end_ls : lsR 199 = table_end.
Proof.
  rewrite lsR_G by lia. unfold table_end, gval. rewrite gstep200. f_equal. replace (INR 199) with 199 by (rewrite INR_IZR_INZ; reflexivity). field.
Qed.
Lemma end_grid : energy 599 = table_end.
Proof.
  rewrite energy_G by lia. unfold table_end, G600, gval. rewrite gstep600. f_equal. replace (INR 599) with 599 by (rewrite INR_IZR_INZ; reflexivity). field.
Qed.

Lemma inf_ltb v x s : Prim2SF v = S754_infinity s -> fin x -> (v <? x)%float = s /\ (x <? v)%float = negb s /\ (x <=? v)%float = negb s /\ (v =? x)%float = false.
Proof.
  intros E FX. rewrite !FloatAxioms.ltb_spec, FloatAxioms.leb_spec, FloatAxioms.eqb_spec, E. destruct (SF_fin x FX) as [(s' & E')|(s' & m & e & E')]; rewrite E'; destruct s; try destruct s'; repeat split; reflexivity.
Qed.

(** ** The index in the grid of the splines *)
Lemma clear_index lm v : accurate lm -> clear_of_end v -> any_index (N:=NumF lm) v.
Proof.
  intros AC H. pose proof AC as [EX _]. destruct (energyF_bounds lm 599 EX ltac:(lia)) as (F9 & P9 & B9). destruct (energyF_bounds lm 0 EX ltac:(lia)) as (F0 & P0 & B0). rewrite end_grid in *. unfold any_index. fold (tableF lm). destruct H as [[s E]|[FV H]].
  - destruct (inf_ltb v _ s E F0) as (L0 & _). destruct (minus_eps lm 599 EX ltac:(lia)) as (FE9 & _). destruct (inf_ltb v _ s E FE9) as (_ & _ & L9 & _).
    unfold et_index. change (et_n (tableF lm)) with 600%nat. change (Z.of_nat 600 - 1)%Z with 599%Z. rewrite (agetF lm 0), (agetF lm 599) by lia. cbn [bind].
    rewrite step_nonzero, orb_false_r. change (Z.to_nat 0) with 0%nat. change (Z.to_nat 599) with 599%nat. cbn [fltb fleb fsub NumF]. rewrite L0. destruct s.
    + exists (-1)%Z. split; [reflexivity|lia].
    + rewrite L9. exists 599%Z. split; [reflexivity|lia].
  - destruct (C19_binary64 lm v AC FV) as (A1 & A2 & A3). destruct (Rlt_le_dec (val v) (val (energyF lm 0))) as [L|L].
    + exists (-1)%Z. split; [apply A1; exact L|lia].
    + destruct H as [H|H].
      * destruct A3 as (i & E & I1 & _); [split; [exact L|]|exists (Z.of_nat i); split; [exact E|lia]]. clear - H B9 P9. nra.
      * exists 599%Z. split; [apply A2|lia]. clear - H B9 P9. nra.
Qed.

(** ** The lookups in the tables of the Lindhard correction *)
Lemma clear_interpolate lm v (y : Z -> outcome float) : accurate lm -> clear_of_end v -> (forall i, (0 <= i < 200)%Z -> defined (y i)) ->
  defined (et_interpolate (N:=NumF lm) (lsF lm) v y).
Proof.
  intros AC H Y. pose proof AC as [EX _]. destruct (lsE_bounds lm 199 EX ltac:(lia)) as (F9 & P9 & B9). destruct (lsE_bounds lm 0 EX ltac:(lia)) as (F0 & P0 & B0). rewrite end_ls in *.
  unfold et_interpolate. change (et_n (lsF lm)) with 200%nat. change (Z.of_nat 200 - 1)%Z with 199%Z. rewrite (ls_agetF lm 0), (ls_agetF lm 199) by lia. cbn [bind]. change (Z.to_nat 0) with 0%nat. change (Z.to_nat 199) with 199%nat.
  cbn [fltb feqb NumF]. destruct H as [[s E]|[FV H]].
  - destruct (inf_ltb v _ s E F0) as (L0 & _). destruct (inf_ltb v _ s E F9) as (_ & L9 & _). rewrite L0, L9. destruct s; apply defined_Ok.
  - destruct (ltb_val v _ FV F0) as [C0|C0]; [apply defined_Ok|]. destruct (ltb_val _ v F9 FV) as [C9|C9]; [apply defined_Ok|]. cbn [orb].
    destruct (eqb_val v _ FV F9) as [CE|CE]; [apply Y; lia|]. destruct H as [H|H]; [|exfalso; clear - H C9 B9 P9 CE; nra].
    destruct (C25_binary64_index lm v AC FV) as (_ & _ & A3). destruct A3 as (i & IX & I1 & _); [split; [lra|clear - H B9 P9; nra]|].
    rewrite IX. cbn [bind]. rewrite (ls_agetF lm (Z.of_nat i + 1)), (ls_agetF lm (Z.of_nat i)) by lia. cbn [bind].
    match goal with |- defined (if ?b then _ else _) => destruct b end; [apply defined_Ok|].
    dbind; [apply Y; lia|]. dbind; [apply Y; lia|]. apply defined_Ok.
Qed.
Lemma clear_ls lm v : accurate lm -> clear_of_end v -> any_ls (N:=NumF lm) v.
Proof.
  intros AC H tab z Z1 L. unfold ls_lookup. dbind; [now apply defined_aget|]. apply clear_interpolate; [exact AC|exact H|]. intros i I1. apply defined_omap, defined_aget.
  apply aget_ok in H0. destruct H0 as [_ Hr]. apply nth_error_In in Hr. rewrite Forall_forall in L. rewrite (L _ Hr). lia.
Qed.

(** ** Charge numbers *)
Definition charge_ok (p : Projectile float) : Prop := fin (pZ p) /\ 1 <= val (pZ p) < 109.
Definition elements_ok (m : Material float) : Prop := forall t, In t (m_atoms m) -> (1 <= tZ t <= 46340)%Z.

Lemma to_int_val x : fin x -> 0 < val x < 2147483648 -> F_to_int x = Some (Zfloor (val x)).
Proof.
  intros FX [P Q]. pose proof (F_floor_Z_val x FX) as V. unfold F_to_int. replace (F_trunc_Z x) with (F_floor_Z x).
  - rewrite V. unfold int_range. assert (0 <= Zfloor (val x))%Z by (apply Zfloor_lub; lra). assert (Zfloor (val x) < 2147483648)%Z by (apply lt_IZR; eapply Rle_lt_trans; [apply Zfloor_lb|exact Q]).
    destruct (Z.leb_spec (-2147483648) (Zfloor (val x))), (Z.leb_spec (Zfloor (val x)) 2147483647); try lia. reflexivity.
  - unfold F_floor_Z, F_trunc_Z. rewrite val_SF in P. destruct (Prim2SF x) as [s|s| |s m e]; try reflexivity. destruct s; [|reflexivity]. exfalso. cbn [SFR] in P. revert P. apply Rle_not_lt.
    assert (N1 : IZR (Zneg m) < 0) by (apply IZR_lt; lia). destruct (Z.leb_spec 0 e).
    + assert (0 < IZR (2 ^ e)) by (apply IZR_lt, Z.pow_pos_nonneg; lia). nra.
    + assert (0 < IZR (2 ^ (- e))) by (apply IZR_lt, Z.pow_pos_nonneg; lia). unfold Rdiv. assert (0 < / IZR (2 ^ (- e))) by now apply Rinv_0_lt_compat. nra.
Qed.
Lemma charge_any lm p : charge_ok p -> any_Z (N:=NumF lm) p.
Proof.
  intros [FZ BZ]. exists (Zfloor (val (pZ p))). split; [apply to_int_val; [exact FZ|lra]|]. split; [apply Zfloor_lub; lra|].
  assert (Zfloor (val (pZ p)) < 109)%Z; [|lia]. apply lt_IZR. eapply Rle_lt_trans; [apply Zfloor_lb|lra].
Qed.
Lemma elements_any m : elements_ok m -> any_targets m.
Proof. intros H. apply Forall_forall. exact H. Qed.

Lemma clear_first lm : accurate lm -> clear_of_end (lsE lm 0).
Proof.
  intros [EX _]. destruct (lsE_bounds lm 0 EX ltac:(lia)) as (F0 & P0 & B0). right. split; [exact F0|left].
  rewrite <- end_ls. assert (lsR 0 * (1 + 38 / 1000) <= lsR 199). { eapply Rle_trans; [apply (lsR_step 0); lia|]. rewrite !lsR_G by lia. apply gval_le; [apply n200|apply l200|apply le_INR; lia]. }
  clear - B0 P0 H. nra.
Qed.
Lemma clear_lindhard lm p : accurate lm -> charge_ok p -> clear_of_end (pT p) ->
  defined (precalculated_lindhard (N:=NumF lm) p) /\ defined (precalculated_lindhard_X (N:=NumF lm) p).
Proof.
  intros AC CZ CT. split.
  - apply any_lindhard; [now apply charge_any|]. intros e0 E0. fold (lsF lm) in E0. rewrite (ls_agetF lm 0) in E0 by lia. change (Z.to_nat 0) with 0%nat in E0. assert (e0 = lsE lm 0) by congruence. subst e0.
    destruct (fltb _ _); apply clear_ls; auto using clear_first.
  - apply any_lindhard_X; [now apply charge_any|now apply clear_ls].
Qed.

(** ** C38: the stopping power and the straggling *)
Theorem C38_binary64 lm p m c : accurate lm -> charge_ok p -> elements_ok m -> clear_of_end (pT p) ->
  (exists v, dedx (N:=NumF lm) p m c = Ok v) /\ (exists v, domega2dx (N:=NumF lm) p m c = Ok v) /\ (exists v, da2de (N:=NumF lm) p m c = Ok v).
Proof.
  intros AC CZ EM CT. destruct (clear_lindhard lm p AC CZ CT) as [L X]. pose proof (charge_any lm p CZ) as AZ. pose proof (elements_any m EM) as AT.
  split; [now apply any_dedx|]. split; [now apply any_domega2dx|now apply any_da2de].
Qed.
Print Assumptions C38_binary64.

(** ** The energies of the quadrature are clear of the end of the tables *)
Lemma node_clear lm i n : accurate lm -> (S i < 600)%nat -> In n (GL8_nodes (N:=NumF lm)) ->
  let p := halfwidth lm (energyF lm i) (energyF lm (S i)) in let q := centre lm (energyF lm i) (energyF lm (S i)) in
  clear_of_end (p * fst n + q) /\ clear_of_end (- p * fst n + q).
Proof.
  intros AC I1 IN p q. pose proof AC as [EX _]. pose proof (grid_cell lm i EX I1) as C. pose proof (proj1 (Forall_forall _ _) (nodes_ok lm) _ IN) as NO. destruct n as [x w]. cbn [fst].
  destruct (node_accuracy lm _ _ x w C NO) as (((F1 & L1 & U1) & (F2 & L2 & U2)) & A1 & A2). fold p q in F1, L1, U1, F2, L2, U2, A1, A2.
  destruct C as (_ & _ & LL & LD & LU). destruct NO as (_ & _ & BX & _). cbn [fst] in BX.
  pose proof (grid_range lm (S i) EX I1) as [_ GR]. destruct (energyF_bounds lm 599 EX ltac:(lia)) as (_ & P9 & B9). rewrite end_grid in *.
  assert (U0 : 0 < u < / 10 ^ 15) by (unfold u; lra).
  set (lo := val (energyF lm i)) in *. set (hi := val (energyF lm (S i))) in *. set (x' := val x) in *. clearbody lo hi x'. apply Rabs_le_inv in A1. apply Rabs_le_inv in A2. remember (val (p * x + q)) as a eqn:Ea. remember (val (- p * x + q)) as b eqn:Eb.
  assert (HP : 0 < hi) by lra. assert (UH : 0 <= 10 * u * hi <= hi / 10 ^ 14) by (split; [nra|]; replace (hi / 10 ^ 14) with (/ 10 ^ 14 * hi) by field; apply Rmult_le_compat_r; lra).
  assert (W : hi * (3 / 100) * (3 / 100) <= (hi - lo) * (1 - x')) by (apply Rmult_le_compat; lra).
  assert (W2 : 0 <= (hi - lo) * x') by (apply Rmult_le_pos; lra).
  replace ((hi + lo) / 2 + (hi - lo) / 2 * x') with (hi - (hi - lo) * (1 - x') / 2) in A1 by field. replace ((hi + lo) / 2 - (hi - lo) / 2 * x') with (hi - (hi - lo) * (1 - x') / 2 - (hi - lo) * x') in A2 by field.
  set (y := (hi - lo) * (1 - x')) in *. set (z := (hi - lo) * x') in *. set (k := 10 * u * hi) in *. clearbody y z k.
  assert (J : a <= hi * (1 - 2 / 10000)) by lra. assert (J2 : b <= hi * (1 - 2 / 10000)) by lra.
  assert (E : hi * (1 - 2 / 10000) < table_end * (1 - 2 / 10 ^ 11)) by lra.
  split; right; (split; [assumption|left]); [rewrite <- Ea|rewrite <- Eb]; lra.
Qed.

Lemma grid_step_ok lm A f i : accurate lm -> (S i < 600)%nat -> (forall x, clear_of_end x -> defined (f x)) ->
  defined (scaled_integral (N:=NumF lm) A f (energyF lm i) (energyF lm (S i))).
Proof.
  intros AC I1 H. unfold scaled_integral. dbind; [|apply defined_Ok]. apply any_integrate. intros n IN.
  destruct (node_clear lm i n AC I1 IN) as [C1 C2]. split; apply H; assumption.
Qed.
Lemma grid_table_ok lm A f : accurate lm -> (forall x, clear_of_end x -> defined (f x)) ->
  exists l, table (N:=NumF lm) (scaled_integral (N:=NumF lm) A f) (et_values (tableF lm)) = Ok l /\ length l = 600%nat.
Proof.
  intros AC H. pose proof (any_grid_length (N:=NumF lm)) as GL. fold (tableF lm) in GL.
  destruct (any_table (N:=NumF lm) (scaled_integral (N:=NumF lm) A f) 0%float (et_values (tableF lm))) as (l & E & L); [rewrite GL; lia| |exists l; split; [exact E|congruence]].
  rewrite GL. intros i I1. apply (grid_step_ok lm A f i AC I1 H).
Qed.
Lemma tables_defined lm p m c : accurate lm -> charge_ok p -> elements_ok m -> any_tables (N:=NumF lm) p m c.
Proof.
  intros AC CZ EM. assert (D : forall x, clear_of_end x -> defined (dedx (N:=NumF lm) (at_T p x) m c) /\ defined (domega2dx (N:=NumF lm) (at_T p x) m c) /\ defined (da2de (N:=NumF lm) (at_T p x) m c)).
  { intros x CX. exact (C38_binary64 lm (at_T p x) m c AC CZ EM CX). }
  destruct (grid_table_ok lm (pA p) (fdedx (N:=NumF lm) p m c) AC) as (r & Er & Lr). { intros x CX. unfold fdedx. dbind; [apply D, CX|apply defined_Ok]. }
  destruct (grid_table_ok lm (pA p) (fomega (N:=NumF lm) p m c) AC) as (s & Es & Ls). { intros x CX. unfold fomega. dbind; [apply D, CX|]. dbind; [apply D, CX|apply defined_Ok]. }
  destruct (grid_table_ok lm (pA p) (ftheta (N:=NumF lm) p m c) AC) as (a & Ea & La). { intros x CX. unfold ftheta. apply D, CX. }
  exists r, s, a. repeat (split; [assumption|]). assumption.
Qed.

(** the three tables of every projectile and material *)
Theorem C38_tables_binary64 lm p m c : accurate lm -> charge_ok p -> elements_ok m ->
  exists d, calculate_DataPoint (N:=NumF lm) p m c = Ok d /\ length (dp_range d) = 600%nat /\ length (dp_rs d) = 600%nat /\ length (dp_av d) = 600%nat.
Proof.
  intros AC CZ EM. destruct (tables_defined lm p m c AC CZ EM) as (r & s & a & Er & Es & Ea & Lr & Ls & La).
  unfold calculate_DataPoint. rewrite Er, Ea, Es. cbn [bind]. eexists. split; [reflexivity|]. cbn [dp_range dp_rs dp_av]. repeat split; assumption.
Qed.
Print Assumptions C38_tables_binary64.

(** ** C53: lookups never fail, and the splines answer at every energy clear of the end of the tables *)
Lemma two_not_zero lm : feqb (Num:=NumF lm) (lit (Num:=NumF lm) 2.0) (lit (Num:=NumF lm) 0.0) = false.
Proof. vm_compute. reflexivity. Qed.
Lemma charge_not_default lm p t c : charge_ok p -> key_match (N:=NumF lm) p t c (DataPoint0 (N:=NumF lm)) = false.
Proof.
  intros [FZ BZ]. unfold key_match. cbn [DataPoint0 dp_p]. replace (proj_eqb (N:=NumF lm) (Projectile0 (N:=NumF lm)) p) with false; [reflexivity|].
  symmetry. apply not_true_is_false. intros H. unfold proj_eqb in H. apply andb_prop in H. destruct H as [H _]. apply andb_prop in H. destruct H as [_ H]. cbn [Projectile0 pZ feqb NumF] in H.
  destruct (zero_app lm) as [F0 A0]. change (lit (Num:=NumF lm) 0.0) with (lit (Num:=NumF lm) 0) in H. destruct (eqb_val _ _ F0 FZ) as [E|E]; [|discriminate H]. apply Rabs_le_inv in A0. lra.
Qed.

Section Calls.
Variable lm : Libm.
Variable junk : nat -> float * float.
Hypothesis AC : accurate lm.

(** the call returns and leaves a sound cache behind *)
Definition returns {A} (w : world float) (x : outcome (A * world float)) : Prop :=
  exists a w', x = Ok (a, w') /\ any_world (N:=NumF lm) w' /\ w_default w' = w_default w.

Lemma lookup_returns p t c w : charge_ok p -> elements_ok t -> any_world (N:=NumF lm) w ->
  exists d w', lookup (N:=NumF lm) junk p t c w = Ok (d, w') /\ any_dp (N:=NumF lm) d /\ any_world (N:=NumF lm) w' /\ w_default w' = w_default w.
Proof.
  intros CZ EM W. apply (any_lookup (N:=NumF lm) junk p t c w); [apply two_not_zero|now apply tables_defined|now apply charge_not_default|exact W].
Qed.

Section Splines.
Variables (d : DataPoint float) (x : float).
Hypothesis OD : any_dp (N:=NumF lm) d.
Hypothesis CX : clear_of_end x.
Lemma splines_answer : defined (interp_eval (N:=NumF lm) (dp_range_spline d) x) /\ defined (interp_deriv (N:=NumF lm) (dp_range_spline d) x) /\
  defined (interp_eval (N:=NumF lm) (dp_rs_spline d) x) /\ defined (interp_deriv (N:=NumF lm) (dp_rs_spline d) x) /\
  defined (interp_eval (N:=NumF lm) (dp_av_spline d) x) /\ defined (interp_deriv (N:=NumF lm) (dp_av_spline d) x).
Proof.
  destruct OD as (s1 & s2 & s3 & E1 & E2 & E3 & O1 & O2 & O3). pose proof (clear_index lm x AC CX) as IX. rewrite E1, E2, E3.
  repeat split; (apply any_spline_eval || apply any_spline_deriv); assumption.
Qed.
End Splines.

Theorem C53_binary64 p t c w : charge_ok p -> elements_ok t -> any_world (N:=NumF lm) w ->
  (clear_of_end (pT p) -> returns w (range (N:=NumF lm) junk p t c w) /\ returns w (dedx_from_range (N:=NumF lm) junk p t c w)) /\
  (forall T, clear_of_end T -> returns w (range_straggling (N:=NumF lm) junk p T t c w) /\ returns w (range_variance (N:=NumF lm) junk p T t c w) /\
     returns w (domega2de (N:=NumF lm) junk p T t c w)) /\
  (forall T Tout, clear_of_end T -> clear_of_end Tout -> returns w (energy_straggling_from_E (N:=NumF lm) junk p T Tout t c w)) /\
  (forall Ts, Forall clear_of_end Ts -> exists l w', dedx_from_range_v (N:=NumF lm) junk p Ts t c w = Ok (l, w') /\ length l = length Ts /\ any_world (N:=NumF lm) w').
Proof.
  intros CZ EM W. destruct (lookup_returns p t c w CZ EM W) as (d & w' & L & OD & OW & ED).
  assert (G : forall A B (x : outcome B) (f : B -> A), defined x -> returns w (bind x (fun b => Ok (f b, w')))).
  { intros A B x f [b E]. rewrite E. cbn [bind]. exists (f b), w'. split; [reflexivity|]. split; assumption. }
  split; [|split; [|split]].
  - intros CT. destruct (splines_answer d (pT p) OD CT) as (S1 & S2 & _). unfold range, dedx_from_range. rewrite L. cbn [bind]. split; apply (G _ _ _ _); assumption.
  - intros T CT. destruct (splines_answer d T OD CT) as (_ & _ & S3 & S4 & _). unfold range_straggling, range_variance, domega2de. rewrite L. cbn [bind]. repeat split; apply (G _ _ _ _); assumption.
  - intros T Tout C1 C2. destruct (splines_answer d T OD C1) as (_ & _ & [v1 E1] & _). destruct (splines_answer d Tout OD C2) as (_ & [v2 E2] & [v3 E3] & _).
    unfold energy_straggling_from_E. rewrite L. cbn [bind]. rewrite E2. cbn [bind]. rewrite E1. cbn [bind]. rewrite E3. cbn [bind]. do 2 eexists. split; [reflexivity|]. split; assumption.
  - intros Ts HT. unfold dedx_from_range_v. rewrite L. cbn [bind].
    match goal with |- context [omapM ?f Ts] => assert (D : exists l, omapM f Ts = Ok l /\ length l = length Ts) end.
    { induction HT as [|e Ts HE HT IH]; [exists []; split; reflexivity|]. cbn [omapM]. destruct IH as (l & -> & LL).
      destruct (fltb (Num:=NumF lm) e (Ezero (N:=NumF lm))).
      - cbn [bind]. eexists. split; [reflexivity|]. cbn [length]. now rewrite LL.
      - destruct (splines_answer d e OD HE) as (_ & [v E] & _). rewrite E. cbn [bind]. eexists. split; [reflexivity|]. cbn [length]. now rewrite LL. }
    destruct D as (l & -> & LL). cbn [bind]. do 2 eexists. split; [reflexivity|]. split; assumption.
Qed.

(** ** energy_out: it can only be undefined if the Newton iteration comes to an energy that is not clear of the
    end of the tables (or NaN) *)
(** [iterate e s]: the iteration started at T with the range r, slope 1/d there, comes to the energy e with the
    inverse slope s *)
Inductive iterate (rng drv : float -> outcome float) (T th : float) : float -> float -> Prop :=
| it_start d : drv T = Ok d -> iterate rng drv T th (T - th * (lit (Num:=NumF lm) 1.0 / d))%float (lit (Num:=NumF lm) 1.0 / d)%float
| it_step e s e' d : proposed rng drv T th e s e' -> drv e' = Ok d -> iterate rng drv T th e' (lit (Num:=NumF lm) 1.0 / d)%float
(** the next energy: e + (r - range(e) - th) * s *)
with proposed (rng drv : float -> outcome float) (T th : float) : float -> float -> float -> Prop :=
| it_next e s r re : iterate rng drv T th e s -> rng T = Ok r -> rng e = Ok re -> proposed rng drv T th e s (e - - (r - re - th) * s)%float.
Definition visited (rng drv : float -> outcome float) (T th x : float) : Prop :=
  (exists s, iterate rng drv T th x s) \/ (exists e s, proposed rng drv T th e s x).

Lemma newton_visits rng drv T th r : rng T = Ok r ->
  (forall x, visited rng drv T th x -> defined (rng x) /\ defined (drv x)) ->
  forall k e s, iterate rng drv T th e s -> defined (newton (N:=NumF lm) rng drv r th k e s).
Proof.
  intros ER H. induction k as [|k IH]; intros e s IT.
  - cbn [newton]. destruct (H e (or_introl (ex_intro _ s IT))) as [[re Ere] _]. rewrite Ere. cbn [bind].
    match goal with |- defined (if ?b then _ else _) => destruct b end; [apply defined_Ok|].
    match goal with |- defined (if ?b then _ else _) => destruct b end; [apply defined_Ok|].
    assert (PR : proposed rng drv T th e s (e - - (r - re - th) * s)%float) by (apply it_next; assumption).
    destruct (H _ (or_intror (ex_intro _ e (ex_intro _ s PR)))) as [_ [dv Edv]]. cbn [fsub fmul fneg NumF]. rewrite Edv. cbn [bind]. apply defined_Ok.
  - cbn [newton]. destruct (H e (or_introl (ex_intro _ s IT))) as [[re Ere] _]. rewrite Ere. cbn [bind].
    match goal with |- defined (if ?b then _ else _) => destruct b end; [apply defined_Ok|].
    match goal with |- defined (if ?b then _ else _) => destruct b end; [apply defined_Ok|].
    assert (PR : proposed rng drv T th e s (e - - (r - re - th) * s)%float) by (apply it_next; assumption).
    destruct (H _ (or_intror (ex_intro _ e (ex_intro _ s PR)))) as [_ [dv Edv]]. cbn [fsub fmul fneg NumF]. rewrite Edv. cbn [bind].
    apply IH. exact (it_step rng drv T th e s _ dv PR Edv).
Qed.

Theorem C53_energy_out_binary64 p t c w : charge_ok p -> elements_ok t -> any_world (N:=NumF lm) w -> clear_of_end (pT p) ->
  returns w (energy_out (N:=NumF lm) junk p t c w) \/
  exists d w' x, lookup (N:=NumF lm) junk p t c w = Ok (d, w') /\
    visited (interp_eval (N:=NumF lm) (dp_range_spline d)) (interp_deriv (N:=NumF lm) (dp_range_spline d)) (pT p) (m_th t) x /\ ~ clear_of_end x.
Proof.
  intros CZ EM W CT. destruct (lookup_returns p t c w CZ EM W) as (d & w' & L & OD & OW & ED).
  set (rng := interp_eval (N:=NumF lm) (dp_range_spline d)). set (drv := interp_deriv (N:=NumF lm) (dp_range_spline d)).
  destruct (Classical_Prop.classic (exists x, visited rng drv (pT p) (m_th t) x /\ ~ clear_of_end x)) as [(x & V & NC)|NO].
  { right. exists d, w', x. split; [exact L|]. split; assumption. }
  left. unfold energy_out. rewrite L. cbn [bind]. unfold energy_out_sp, energy_out_fn. fold rng drv.
  destruct (splines_answer d (pT p) OD CT) as ([r Er] & [dv Ed] & _). fold rng in Er. fold drv in Ed. rewrite Er. cbn [bind]. rewrite Ed. cbn [bind].
  assert (D : defined (newton (N:=NumF lm) rng drv r (m_th t) 100 (pT p - m_th t * (lit (Num:=NumF lm) 1.0 / dv))%float (lit (Num:=NumF lm) 1.0 / dv)%float)).
  { apply (newton_visits rng drv (pT p)); [exact Er| |apply it_start; exact Ed].
    intros x V. assert (CX : clear_of_end x) by (apply Classical_Prop.NNPP; intros NC; apply NO; exists x; split; assumption).
    destruct (splines_answer d x OD CX) as (S1 & S2 & _). split; assumption. }
  destruct D as [v D]. cbn [fsub fmul fdiv NumF].
  match goal with |- returns w (bind (if ?b then _ else _) _) => destruct b end; [|rewrite D]; cbn [bind]; do 2 eexists; (split; [reflexivity|]); split; assumption.
Qed.

(** ** A layer of thickness zero *)
Theorem C53_no_layer_binary64 p t c w : charge_ok p -> elements_ok t -> any_world (N:=NumF lm) w -> clear_of_end (pT p) ->
  (m_th t =? lit (Num:=NumF lm) 0)%float = true -> returns w (calculate (N:=NumF lm) junk p t c w).
Proof.
  intros CZ EM W CT TH. destruct (lookup_returns p t c w CZ EM W) as (d & w' & L & OD & OW & ED). destruct (splines_answer d (pT p) OD CT) as ([r Er] & [dv Ed] & [sv Es] & _).
  unfold calculate. cbv zeta. match goal with |- returns w (if ?b then _ else _) => destruct b end; [do 2 eexists; split; [reflexivity|split; [exact W|reflexivity]]|].
  rewrite L. cbn [bind]. rewrite Er. cbn [bind]. rewrite Ed. cbn [bind]. rewrite Es. cbn [bind feqb NumF]. rewrite TH. do 2 eexists. split; [reflexivity|split; assumption].
Qed.
End Calls.
Print Assumptions C53_binary64.
Print Assumptions C53_energy_out_binary64.
Print Assumptions C53_no_layer_binary64.

(** ** The margin is needed: at 1e7 MeV/u the stopping power and the straggling are undefined, if libm rounds
    exp(16.118...) and log(1e7) correctly *)
Theorem C38_binary64_refuted :
  exists v : float, v = 10000000%float /\ (exists lm, ls_rounds_like lm) /\
    forall lm p m c, ls_rounds_like lm -> pT p = v -> charge_ok p -> elements_ok m -> m_atoms m <> [] ->
      (corr_has c no_lindhard = false -> dedx (N:=NumF lm) p m c = UB OutOfBounds) /\ domega2dx (N:=NumF lm) p m c = UB OutOfBounds.
Proof.
  destruct C25_binary64_refuted as (v & EV & EX & H). exists v. split; [exact EV|]. split; [exact EX|]. intros lm p m c RL PT CZ EM NE.
  destruct (H lm RL) as (_ & _ & HL). destruct (HL p PT (charge_any lm p CZ)) as [L X]. clear H HL EX.
  destruct (m_atoms m) as [|t ts] eqn:M; [contradiction|]. split.
  - intros NL.
    assert (U : bethek_dedx_e (N:=NumF lm) p m c = UB OutOfBounds).
    { unfold bethek_dedx_e. rewrite M. cbn [ofold]. unfold bethek_dedx_e_t. match goal with |- context [if feqb ?a ?b then _ else _] => replace (feqb a b) with false by (rewrite PT, EV; vm_compute; reflexivity) end. cbv zeta.
      match goal with |- context [bethek_density_effect ?b ?z] => destruct (any_density (N:=NumF lm) b z) as [dd ->] end; [destruct (EM t) as [Q _]; [rewrite M; now left|exact Q]|].
      cbn [bind]. rewrite NL. cbn [negb]. rewrite L. reflexivity. }
    unfold dedx. rewrite U, PT, EV.
    replace (fleb (Num:=NumF lm) 10000000%float (lit (Num:=NumF lm) 0)) with false by (vm_compute; reflexivity). cbv zeta.
    replace (fleb (Num:=NumF lm) 10000000%float (lit (Num:=NumF lm) 10)) with false by (vm_compute; reflexivity).
    replace (fltb (Num:=NumF lm) 10000000%float (lit (Num:=NumF lm) 30)) with false by (vm_compute; reflexivity). rewrite andb_false_r. reflexivity.
  - unfold domega2dx. rewrite M. cbn [ofold]. unfold dedx_variance. cbv zeta. rewrite X. reflexivity.
Qed.
Print Assumptions C38_binary64_refuted.

(** ** A concrete case: carbon ions of 100 MeV/u in water, fresh library, correctly rounded libm *)
Definition carbonF (T : float) : Projectile float := mkProj 12%float 6%float 6%float T.
Definition waterF (th : float) : Material float := mkMat 1%float th 18%float 0%float [mkTarget 1%float 1 2%float; mkTarget 16%float 8 1%float].
Example C53_binary64_case : accurate rounded_libm /\ charge_ok (carbonF 100) /\ elements_ok (waterF 0.5) /\ clear_of_end 100%float /\ any_world (N:=NumF rounded_libm) (world0 (N:=NumF rounded_libm)) /\
  exists r w', range (N:=NumF rounded_libm) (fun _ => (0%float, 0%float)) (carbonF 100) (waterF 0.5) (Config0 (N:=NumF rounded_libm)) (world0 (N:=NumF rounded_libm)) = Ok (r, w') /\ any_world (N:=NumF rounded_libm) w'.
Proof.
  pose proof rounded_accurate as AC. assert (F6 : fin 6%float) by (apply fin_SF; vm_compute; exact I). assert (V6 : val 6%float = 6). { rewrite val_SF. vm_compute Prim2SF. cbn [SFR Z.leb Z.compare Z.opp Z.pow Z.pow_pos Pos.iter Z.mul Pos.mul]. lra. }
  assert (CZ : charge_ok (carbonF 100)) by (split; [exact F6|]; cbn [carbonF pZ]; rewrite V6; lra).
  assert (EM : elements_ok (waterF 0.5)). { intros t [<-|[<-|[]]]; cbn [tZ]; lia. }
  assert (CT : clear_of_end 100%float).
  { right. split; [apply fin_SF; vm_compute; exact I|left]. assert (V : val 100%float = 100). { rewrite val_SF. vm_compute Prim2SF. cbn [SFR Z.leb Z.compare Z.opp Z.pow Z.pow_pos Pos.iter Z.mul Pos.mul]. lra. }
    rewrite V. assert (HI : 200 <= table_end); [|lra]. unfold table_end. apply Rle_trans with (exp (INR 16 * 1)). { rewrite exp_INR. apply Rle_trans with ((9 / 4) ^ 16); [lra|]. apply pow_incr. split; [lra|apply exp_1_ge]. }
    pose proof PropGridFloat.LN10_bounds as LB. assert (Q : INR 16 * 1 <= LN10_ * 7) by (replace (INR 16) with 16 by (rewrite INR_IZR_INZ; reflexivity); lra). destruct Q as [Q|Q]; [left; now apply exp_increasing|rewrite Q; lra]. }
  split; [exact AC|]. split; [exact CZ|]. split; [exact EM|]. split; [exact CT|]. split; [apply any_world0|].
  destruct (C53_binary64 rounded_libm (fun _ => (0%float, 0%float)) AC (carbonF 100) (waterF 0.5) (Config0 (N:=NumF rounded_libm)) (world0 (N:=NumF rounded_libm)) CZ EM (any_world0 (N:=NumF rounded_libm))) as (H & _).
  destruct (H CT) as [(r & w' & E & OW & _) _]. exists r, w'. split; assumption.
Qed.
