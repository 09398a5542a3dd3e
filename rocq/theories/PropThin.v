(** * Concrete cases for C13 and C14 in which the projectile leaves the material *)
From Coq Require Import ZArith Reals List Bool Lra Lia Ranalysis.
From Verif Require Import Num NumR Structures EnergyTable Spline Integrator Calculations NucData
  Reactions Storage Catima CacheProofs CacheFresh History KeyEq ApiCache GridProofs BoundsProofs TotalProofs
  ApiTotal Cases EnergyOutProofs LayerProofs PropCache PropGrid PropSpline PropEnergyOut PropLayers PropMaterial PropSrim PropTables PropApi.
Import ListNotations.
Local Open Scope R_scope.

(** near a grid energy with a positive range, thin enough layers are crossed in one Newton step *)
Lemma near (q : R -> R) x e : cubic q -> 0 < e -> exists d, 0 < d /\ forall z, Rabs (z - x) < d -> Rabs (q z - q x) < e.
Proof.
  intros (a & b & c & d & Q) E.
  assert (C : continuity_pt (fun z => a * z ^ 3 + b * z ^ 2 + c * z + d) x) by reg.
  destruct (C e E) as (dl & D & H). exists dl. split; [exact D|]. intros z Z. rewrite !Q.
  destruct (Req_dec z x) as [->|NE]; [rewrite Rminus_diag_eq by reflexivity; rewrite Rabs_R0; exact E|].
  apply H. split; [split; [exact I|congruence]|exact Z].
Qed.

Lemma thin_eo y jk s k : length y = 600%nat -> make_spline energy_table y jk = Ok s -> (S k < 600)%nat -> 0 < nth k y 0 ->
  exists T th0, energy k < T < energy (S k) /\ 0 < th0 /\
    forall th, 0 < th <= th0 -> exists e, energy_out_sp (Some s) T th = Ok e /\ energy k < e < energy (S k).
Proof.
  intros LY MS K YP. pose proof MS as MS'. rewrite energy_table_eq in MS.
  destruct (C20_continuous 600 (-3) 7 ltac:(lia) m600 l600 library_grid_spacing y jk s MS) as (f & _ & AT & _ & _ & _ & PC & _).
  assert (NE : forall i, (i < 600)%nat -> at_ (et_make 600 (-3) 7) i = Some (energy i)).
  { intros i Hi. unfold at_. rewrite <- energy_table_eq. unfold energy. apply nth_error_nth'. rewrite grid_length. exact Hi. }
  destruct (PC k (energy k) (energy (S k)) (NE k ltac:(lia)) (NE (S k) K)) as (q & CQ & QF & QE).
  pose proof (library_grid_spacing k _ _ (NE k ltac:(lia)) (NE (S k) K)) as GAP.
  assert (EPS : 0 < numeric_epsilon) by (rewrite eps_R; lra).
  assert (M0 : energy 0 <= energy k) by (rewrite !energy_G by lia; apply gval_le; [apply n600|apply l600|]; apply le_INR; lia).
  assert (EV : forall x, energy k <= x < energy (S k) - numeric_epsilon -> spline_eval s x = Ok (q x)).
  { intros x X. apply (QE x (energy 0)); [apply NE; lia|lra|lra]. }
  assert (QK : q (energy k) = nth k y 0).
  { rewrite <- QF by lra. apply AT. apply NE. lia. }
  set (hi := energy (S k) - numeric_epsilon) in *.
  assert (HI : energy k < hi) by (unfold hi; lra).
  destruct (near q (energy k) (nth k y 0 / 2) CQ ltac:(lra)) as (d1 & D1 & N1).
  set (T := energy k + Rmin d1 (hi - energy k) / 2).
  assert (T1 : energy k < T /\ T < hi /\ Rabs (T - energy k) < d1).
  { assert (0 < Rmin d1 (hi - energy k)) by (apply Rmin_pos; lra). pose proof (Rmin_l d1 (hi - energy k)). pose proof (Rmin_r d1 (hi - energy k)).
    unfold T. split; [lra|]. split; [lra|]. rewrite Rabs_right; lra. }
  destruct T1 as (TL & TH & TD). specialize (N1 T TD).
  assert (QT : 0 < q T) by (apply Rabs_def2 in N1; lra).
  destruct (make_spline_ok y jk LY) as (s' & MS2 & SO & _). assert (s' = s) by congruence. subst s'.
  destruct (spline_deriv_ok s T SO) as (dr & DR).
  destruct (near q T (5 / 1000000) CQ ltac:(lra)) as (d2 & D2 & N2).
  set (D := / dr). set (m := Rmin d2 (Rmin (T - energy k) (hi - T))).
  assert (MP : 0 < m) by (unfold m; repeat apply Rmin_pos; lra).
  assert (ML : m <= d2 /\ m <= T - energy k /\ m <= hi - T).
  { unfold m. pose proof (Rmin_l d2 (Rmin (T - energy k) (hi - T))). pose proof (Rmin_r d2 (Rmin (T - energy k) (hi - T))).
    pose proof (Rmin_l (T - energy k) (hi - T)). pose proof (Rmin_r (T - energy k) (hi - T)). lra. }
  assert (AD : 0 < Rabs D + 1) by (pose proof (Rabs_pos D); lra).
  set (th0 := Rmin (q T / 2) (Rmin (4 / 1000000) (m / 2 / (Rabs D + 1)))).
  assert (HP : 0 < m / 2 / (Rabs D + 1)) by (apply Rmult_lt_0_compat; [lra|apply Rinv_0_lt_compat; exact AD]).
  exists T, th0.
  split; [unfold hi in TH; lra|]. split; [unfold th0; repeat apply Rmin_pos; lra|].
  intros th [P1 P2].
  assert (B : th <= q T / 2 /\ th <= 4 / 1000000 /\ th <= m / 2 / (Rabs D + 1)).
  { unfold th0 in P2. pose proof (Rmin_l (q T / 2) (Rmin (4 / 1000000) (m / 2 / (Rabs D + 1)))). pose proof (Rmin_r (q T / 2) (Rmin (4 / 1000000) (m / 2 / (Rabs D + 1)))).
    pose proof (Rmin_l (4 / 1000000) (m / 2 / (Rabs D + 1))). pose proof (Rmin_r (4 / 1000000) (m / 2 / (Rabs D + 1))). lra. }
  destruct B as (B1 & B2 & B3). set (e := T - th * D).
  assert (SM : Rabs (th * D) <= m / 2).
  { rewrite Rabs_mult, (Rabs_right th) by lra. apply Rle_trans with (m / 2 / (Rabs D + 1) * (Rabs D + 1)); [|right; field; lra].
    apply Rmult_le_compat; try lra. apply Rabs_pos. }
  assert (ET : Rabs (e - T) < m).
  { unfold e. replace (T - th * D - T) with (- (th * D)) by ring. rewrite Rabs_Ropp. lra. }
  assert (EI : energy k < e < hi) by (apply Rabs_def2 in ET; lra).
  exists e. split; [|unfold hi in EI; lra].
  unfold energy_out_sp, energy_out_fn. cbn [interp_eval interp_deriv]. rewrite EV by lra. cbn [bind]. rewrite DR. cbn [bind]. cbv zeta. numR.
  destruct (Rleb_spec (q T) th) as [X|_]; [lra|].
  replace (T - th * (Rlit 1.0 / dr)) with e by (unfold e, D; replace (Rlit 1.0) with 1 by (dec_norm; lra); unfold Rdiv; ring).
  assert (NW : forall n dd, newton (F:=R) (spline_eval s) (spline_deriv s) (q T) th n e dd = Ok e).
  { intros n dd. destruct n; cbn [newton]; rewrite EV by lra; cbn [bind]; cbv zeta; numR.
    all: match goal with |- (if Rltb ?a ?b then _ else _) = _ => assert (L : a < b); [|destruct (Rltb_spec a b); [reflexivity|lra]] end.
    all: specialize (N2 e ltac:(lra)); unfold Eout_th_epsilon; numR; apply Rabs_def2 in N2; apply Rabs_def1; dec_norm; lra. }
  apply NW.
Qed.

Lemma solid_water th : solid (water th).
Proof. unfold solid, water. cbn. split; [discriminate|]. split; [lra|]. repeat constructor; cbn; try lia; lra. Qed.

Lemma energy_120 : 1 / 27 <= energy 120 /\ energy 121 <= 1.
Proof.
  pose proof LN10_bounds as LB. rewrite !energy_G by lia. unfold gval, gstep.
  replace (INR 600) with 600 by (rewrite INR_IZR_INZ; reflexivity). replace (INR 120) with 120 by (rewrite INR_IZR_INZ; reflexivity).
  replace (INR 121) with 121 by (rewrite INR_IZR_INZ; reflexivity). split.
  - apply Rle_trans with (exp (-3)); [|left; apply exp_increasing; nra].
    replace (exp (-3)) with (exp (- (3))) by (f_equal; lra). rewrite exp_Ropp. apply Rle_trans with (/ 27); [lra|]. apply Rinv_le_contravar; [apply exp_pos|].
    replace 3 with (1 + 1 + 1) by ring. rewrite !exp_plus. pose proof exp_le_3. pose proof (exp_pos 1).
    assert (exp 1 * exp 1 <= 9) by nra. nra.
  - apply Rle_trans with (exp 0); [left; apply exp_increasing; nra|rewrite exp_0; lra].
Qed.

(** a carbon ion of less than 1 MeV/u that leaves the water with at least 0.001 MeV/u, whatever the default config *)
Lemma passing_case : exists T th, 1 / 27 < T < 1 /\ 0 < th /\
  forall cd, exists r w', calculate junk0 (carbon T) (water th) conf (with_default cd world0) = Ok (r, w') /\ 1 / 27 < r_Eout r < 1.
Proof.
  destruct (lookup_total junk0 (carbon 1) (water 1) conf world0) as (d & w1 & L & OD & OW & _);
    auto using world_ok0 with cases.
  destruct (lookup_made junk0 [] world0 (carbon 1) (water 1) conf d w1) as (RT & k & s & MS & SP); auto with cases.
  destruct energy_120 as [E1 E2].
  assert (IO : ion (carbon 1)) by (unfold ion, carbon; cbn; lra).
  destruct (C28_low (carbon 1) (water 1) conf (dp_range d) IO (solid_water 1) RT) as [Z0 INC].
  assert (LEN : length (dp_range d) = 600%nat).
  { destruct (straggling_table_ok (carbon 1) (water 1) conf) as (st & ST & _); [apply legit_key; auto with cases|].
    destruct (angular_table_ok (carbon 1) (water 1) conf) as (at_ & AT & _); [apply legit_key; auto with cases|].
    apply (C28_differences (carbon 1) (water 1) conf _ _ _ RT ST AT). }
  assert (M : energy 120 <= energy 121) by (rewrite !energy_G by lia; apply gval_le; [apply n600|apply l600|]; apply le_INR; lia).
  assert (YP : 0 < nth 120 (dp_range d) 0) by (rewrite <- Z0 at 1; apply INC; [lia|lra]).
  destruct (thin_eo (dp_range d) (junk0 k) s 120 LEN MS ltac:(lia) YP) as (T & th & TT & TP & EO).
  exists T, th. split; [lra|]. split; [exact TP|]. intros cd. destruct (EO th ltac:(lra)) as (e & EE & EB).
  assert (L' : exists d' w', lookup junk0 (carbon T) (water th) conf (with_default cd world0) = Ok (d', w') /\ dp_range_spline d' = Some s).
  { pose proof (lookup_T junk0 world0 (carbon 1) T th (water 1) conf wf_world0) as S.
    rewrite L in S. change (at_T (carbon 1) T) with (carbon T) in S. change (set_thickness (water 1) th) with (water th) in S.
    rewrite lookup_default. destruct (lookup junk0 (carbon T) (water th) conf world0) as [[d' w']|]; [|contradiction].
    exists d', (with_default cd w'). split; [reflexivity|]. cbn [osim fst] in S. destruct S as (_ & _ & _ & E & _). congruence. }
  destruct L' as (d' & w' & L' & ED).
  assert (BT : forall x, x < 1 -> below_top x) by (intros x X; apply top_above; lra).
  assert (WD : world_ok (with_default cd world0)) by exact world_ok0.
  destruct (calculate_good junk0 (carbon T) (water th) conf (with_default cd world0)) as (r & w2 & H & _); auto with cases.
  { apply BT. cbn [pT carbon]. lra. }
  { intros e' we HE. unfold energy_out in HE. rewrite L' in HE. cbn [bind pT carbon m_th water] in HE.
    rewrite ED, EE in HE. cbn [bind] in HE. injection HE as <- _. apply BT. lra. }
  exists r, w2. split; [exact H|].
  destruct (C12_agrees junk0 _ _ _ _ _ _ H) as (wx & _ & _ & _ & HE).
  - apply not_true_is_false. rewrite too_low_R. cbn [pT carbon]. lra.
  - unfold energy_out in HE. rewrite L' in HE. cbn [bind pT carbon m_th water] in HE. rewrite ED, EE in HE. cbn [bind] in HE.
    assert (X : Ok (e, w') = Ok (r_Eout r, wx)).
    { apply HE. rewrite lit0'. numR. apply Reqb_false. lra. }
    replace (r_Eout r) with e by congruence. lra.
Qed.

(** the ion crosses the water, and its time of flight is the one computed with the default config: here with
    two different default configs, everything else being equal *)
Example C13_case : exists T th r1 w1 r2 w2, let other := mkConfig z_winger 0 1 srim_95 sc_atima 1 in
  calculate junk0 (carbon T) (water th) conf world0 = Ok (r1, w1) /\
  calculate junk0 (carbon T) (water th) conf (with_default other world0) = Ok (r2, w2) /\
  1 / 27 < r_Eout r1 < 1 /\ same_but_tof r1 r2 /\
  calculate_tof_from_E (carbon T) (r_Eout r1) (water th) Config0 = Ok (r_tof r1) /\
  calculate_tof_from_E (carbon T) (r_Eout r1) (water th) other = Ok (r_tof r2).
Proof.
  destruct passing_case as (T & th & TT & TP & PASS).
  destruct (PASS Config0) as (r1 & w1 & H1 & E1). change (with_default Config0 world0) with (world0 (F:=R)) in H1.
  set (other := mkConfig z_winger 0 1 srim_95 sc_atima 1). destruct (PASS other) as (r2 & w2 & H2 & E2).
  destruct (C13_default_config junk0 _ _ _ _ _ _ _ _ _ H1 H2) as [SB _].
  exists T, th, r1, w1, r2, w2. cbv zeta. split; [exact H1|]. split; [exact H2|]. split; [exact E1|]. split; [exact SB|].
  assert (EE : r_Eout r2 = r_Eout r1) by (destruct SB; symmetry; tauto).
  assert (HT : 1 / 1000 - 10 / 4503599627370496 <= pT (carbon T)) by (cbn [pT carbon]; lra).
  assert (H0 : m_th (water th) <> 0) by (cbn [m_th water]; lra).
  pose proof (C13_tof _ _ _ _ _ _ _ HT H0 H1) as T1. pose proof (C13_tof _ _ _ _ _ _ _ HT H0 H2) as T2.
  destruct (Rlt_dec (r_Eout r1) (1 / 1000)); [lra|]. destruct (Rlt_dec (r_Eout r2) (1 / 1000)); [lra|].
  rewrite EE in T2. split; [exact T1|exact T2].
Qed.

Lemma no_thickness T w : world_ok w -> 1 / 1000 <= T -> exists r w', calculate junk0 (carbon T) (graphite 0) conf w = Ok (r, w').
Proof.
  intros W HT. unfold calculate. fold (too_low (pT (carbon T))).
  assert (TL : too_low (pT (carbon T)) = false).
  { apply not_true_is_false. rewrite too_low_R. cbn [pT carbon]. lra. }
  rewrite TL.
  destruct (lookup_total junk0 (carbon T) (graphite 0) conf w) as (d & w1 & L & OD & OW & _); auto with cases.
  rewrite L. cbn [bind pT carbon].
  destruct (dp_range_ok d T OD) as (rg & RG). rewrite RG. cbn [bind].
  destruct (dp_range_d_ok d T OD) as (dr & DR). rewrite DR. cbn [bind].
  destruct (dp_rs_ok d T OD) as (sv & SV). rewrite SV. cbn [bind]. cbv zeta.
  cbn [m_th graphite]. rewrite lit0'. numR. destruct (Reqb_spec 0 0); [|lra].
  eexists. eexists. reflexivity.
Qed.

(** a stack of two layers: the ion crosses the first and enters the second (without thickness) with what is left *)
Example C14_case : exists T th mr w' r1 r2,
  calculate_layers junk0 (carbon T) Phasespace0 [water th; graphite 0] conf world0 = Ok (mr, w') /\
  mr_results mr = [r1; r2] /\ 1 / 27 < r_Eout r1 < 1 /\ r_Ein r2 = r_Eout r1.
Proof.
  destruct passing_case as (T & th & TT & TP & PASS).
  destruct (PASS Config0) as (r1 & w1 & H1 & E1). change (with_default Config0 world0) with (world0 (F:=R)) in H1.
  set (e := r_Eout r1) in *.
  assert (WO : world_ok w1).
  { destruct (calculate_good junk0 (carbon T) (water th) conf world0) as (r & w2 & H & W & _); auto using world_ok0 with cases.
    - apply top_above. cbn [pT carbon]. lra.
    - intros e' we HE. apply top_above. destruct (C12_agrees junk0 _ _ _ _ _ _ H1) as (wx & _ & _ & _ & HX).
      + apply not_true_is_false. rewrite too_low_R. cbn [pT carbon]. lra.
      + rewrite HX in HE; [|rewrite lit0'; numR; apply Reqb_false; cbn [m_th water]; lra]. injection HE as <- _. fold e. lra.
    - congruence. }
  destruct (no_thickness e w1) as (r2 & w2 & H2); [exact WO|lra|].
  destruct (C12_no_thickness junk0 (carbon e) (graphite 0) conf w1 r2 w2) as (EI & _); [cbn [pT carbon]; lra|reflexivity|exact H2|].
  exists T, th. eexists. exists w2, r1, r2. split.
  - unfold calculate_layers. cbn [layers_loop]. change (at_T (carbon T) (pT (carbon T))) with (carbon T).
    rewrite H1. cbn [bind]. fold e. change (at_T (carbon T) e) with (carbon e). rewrite H2. cbn [bind]. reflexivity.
  - split; [reflexivity|]. split; [exact E1|exact EI].
Qed.
