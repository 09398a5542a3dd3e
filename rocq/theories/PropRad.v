(** * C46: radiation length and scattering power *)
From Coq Require Import ZArith Reals List Bool Lra Lia.
From Verif Require Import Num NumR Structures EnergyTable Calculations Storage SpecData DataProofs GridProofs BoundsProofs TotalProofs Cases
  PropMaterial PropKin PropSrim PropTables.
Import ListNotations.
Local Open Scope R_scope.

(** ** Elements *)
(** the elements with a tabulated value (Particle Data Group 2014) *)
Definition pdg_elements : list Z := [1; 2; 3; 4; 6; 7; 8; 9; 10; 13; 14; 17; 18; 22; 26; 29; 32; 50; 54; 74; 78; 79; 82; 92]%Z.
(** the inverse radiation length of the code for all other elements, times 716.405 A, divided by Z^2:
    the two logarithms and the Coulomb terms in (alpha Z)^2 *)
Definition logs (z : Z) : R := ln (18415 / 100 * (1 / Rpower (IZR z) (1 / 3))) + ln (1194 * (1 / Rpower (IZR z) (1 / 3) * (1 / Rpower (IZR z) (1 / 3)))) / IZR z.
Definition alpha2 (z : Z) : R := fine_structure * fine_structure * (IZR z * IZR z).
Definition tail (a2 : R) : R := 10369 / 10000 * (a2 * a2) - 1008 / 1000 * (a2 * a2 * a2) / (1 + a2).
Definition bracket (z : Z) : R := logs z + 1202 / 1000 * alpha2 z + tail (alpha2 z).

Lemma alpha2_nonneg z : 0 <= alpha2 z.
Proof. unfold alpha2. apply Rmult_le_pos; [apply (Rle_0_sqr fine_structure)|apply (Rle_0_sqr (IZR z))]. Qed.
Lemma tail_nonneg a : 0 <= a -> 0 <= tail a.
Proof.
  intros A. unfold tail. assert (Q : 0 <= a / (1 + a) <= 1).
  { split; [apply Rmult_le_pos; [exact A|left; apply Rinv_0_lt_compat; lra]|]. apply Rmult_le_reg_r with (1 + a); [lra|]. unfold Rdiv. rewrite Rmult_assoc, Rinv_l; lra. }
  replace (1008 / 1000 * (a * a * a) / (1 + a)) with (1008 / 1000 * (a * a) * (a / (1 + a))) by (field; lra).
  assert (0 <= a * a) by nra. set (q := a / (1 + a)) in *. set (s := a * a) in *. clearbody q s. nra.
Qed.
Lemma cube_root z : (1 <= z <= 46340)%Z -> 1 <= Rpower (IZR z) (1 / 3) <= 36.
Proof.
  intros Z. assert (1 <= IZR z <= 46340) by (split; apply IZR_le; lia). split.
  - unfold Rpower. apply Rle_trans with (exp 0); [rewrite exp_0; lra|]. destruct (Rle_lt_dec (IZR z) 1) as [L|L]; [replace (IZR z) with 1 by lra; rewrite ln_1, Rmult_0_r; right; reflexivity|].
    left. apply exp_increasing. assert (0 < ln (IZR z)) by (rewrite <- ln_1; apply ln_increasing; lra). lra.
  - apply Rle_trans with (Rpower (36 * 36 * 36) (1 / 3)); [apply Rle_Rpower_l; lra|].
    replace (36 * 36 * 36) with (Rpower 36 3) by (replace 3 with (INR 3) by (cbn [INR]; lra); rewrite Rpower_pow by lra; cbn [pow]; ring).
    rewrite Rpower_mult. replace (3 * (1 / 3)) with 1 by lra. rewrite Rpower_1 by lra. lra.
Qed.
Lemma ln_low x k : 1 <= k -> 1 - 1 / k <= ln k /\ (k <= x -> 1 - 1 / k <= ln x).
Proof.
  intros K. assert (L : 1 - 1 / k <= ln k).
  { pose proof (exp_ineq1_le (- ln k)) as H. rewrite exp_Ropp, exp_ln in H by lra. unfold Rdiv. lra. }
  split; [exact L|]. intros X. apply Rle_trans with (ln k); [exact L|]. destruct X as [X| ->]; [left; apply ln_increasing; lra|right; reflexivity].
Qed.
Lemma logs_pos z : (1 <= z <= 46340)%Z -> 1 / 2 < logs z.
Proof.
  intros Z. pose proof (cube_root z Z) as C. assert (ZR : 1 <= IZR z) by (apply IZR_le; lia). unfold logs. set (r := Rpower (IZR z) (1 / 3)) in *. clearbody r.
  assert (I : 1 / 36 <= 1 / r) by (unfold Rdiv; rewrite !Rmult_1_l; apply Rinv_le_contravar; lra).
  assert (L1 : 1 - 1 / 5 <= ln (18415 / 100 * (1 / r))) by (apply ln_low; lra).
  set (y := 1194 * (1 / r * (1 / r))). assert (Y : 9 / 10 <= y) by (unfold y; nra).
  assert (L2 : - (1 / 9) <= ln y).
  { pose proof (exp_ineq1_le (- ln y)) as H. rewrite exp_Ropp, exp_ln in H by lra.
    assert (/ y <= 10 / 9) by (replace (10 / 9) with (/ (9 / 10)) by field; apply Rinv_le_contravar; lra). lra. }
  assert (L3 : - (1 / 9) <= ln y / IZR z).
  { apply Rmult_le_reg_r with (IZR z); [lra|]. unfold Rdiv at 2. rewrite Rmult_assoc, Rinv_l by lra. nra. }
  lra.
Qed.

Lemma radiation_value z m : (-46340 <= z <= 46340)%Z -> radiation_length_z (F:=R) z m =
  match zassoc radiation_table z with Some d => Ok (Rlit d) | None => Ok (716405 / 1000 * m / (IZR z * IZR z *
    (ln (18415 / 100 * (1 / Rpow_c (IZR z) (1 / 3))) + ln (1194 * (1 / Rpow_c (IZR z) (1 / 3) * (1 / Rpow_c (IZR z) (1 / 3)))) / IZR z
     + 1202 / 1000 * alpha2 z + tail (alpha2 z)))) end.
Proof.
  intros Z. unfold radiation_length_z. destruct (zassoc radiation_table z); [reflexivity|]. rewrite imul_ok by nia. cbn [bind]. f_equal.
  unfold alpha2, tail. numR. rewrite mult_IZR. set (a := fine_structure). clearbody a.
  replace (Rlit 1) with 1 by (dec_norm; lra). replace (Rlit 3) with 3 by (dec_norm; lra). replace (Rlit 1.0) with 1 by (dec_norm; lra).
  set (r := Rpow_c (IZR z) (1 / 3)). clearbody r. dec_norm.
  replace (11940 / 10) with 1194 by lra. f_equal. f_equal. lra.
Qed.
Lemma zassoc_none z : zassoc radiation_table z = None <-> ~ In z pdg_elements.
Proof.
  assert (G : forall l, @zassoc dec l z = None <-> ~ In z (map fst l)).
  { induction l as [|[k v] l IH]; cbn [zassoc map fst In]; [tauto|]. destruct (Z.eqb_spec z k); [subst; intuition congruence|]. rewrite IH. intuition. }
  rewrite G. reflexivity.
Qed.

(** positive for every element whose Z^2 fits into an int *)
Theorem C46_element z m : (1 <= z <= 46340)%Z -> 0 < m -> exists r, radiation_length_z (F:=R) z m = Ok r /\ 0 < r /\
  (In z pdg_elements -> 6 <= r <= 9432 / 100) /\ (~ In z pdg_elements -> r = 716405 / 1000 * m / (IZR z * IZR z * bracket z)).
Proof.
  intros Z M. rewrite (radiation_value z m) by lia. destruct (zassoc radiation_table z) as [d|] eqn:E.
  - assert (IN : In (z, d) radiation_table).
    { revert E. generalize radiation_table. induction l as [|[k v] l IH]; cbn [zassoc]; [discriminate|]. destruct (Z.eqb_spec z k); [intros [= <-]; left; congruence|intros H; right; auto]. }
    assert (B : 6 <= Rlit d <= 9432 / 100).
    { assert (A : Forall (fun x => 6 <= Rlit (snd x) <= 9432 / 100) radiation_table).
      { unfold radiation_table. repeat (apply Forall_cons; [cbn [snd]; dec_norm; lra|]). apply Forall_nil. }
      rewrite Forall_forall in A. exact (A _ IN). }
    exists (Rlit d). split; [reflexivity|]. split; [lra|]. split; [intros _; exact B|]. intros N. apply zassoc_none in N. congruence.
  - assert (ZR : 1 <= IZR z) by (apply IZR_le; lia). rewrite !Rpow_pos by lra.
    assert (BP : 0 < bracket z).
    { pose proof (logs_pos z Z). pose proof (alpha2_nonneg z). pose proof (tail_nonneg _ H0). unfold bracket. lra. }
    eexists. split; [reflexivity|]. fold (logs z). fold (bracket z). split; [|split; [|reflexivity]].
    + apply pos_quot; [lra|]. apply Rmult_lt_0_compat; [nra|exact BP].
    + intros I. apply zassoc_none in E. contradiction.
Qed.
Print Assumptions C46_element.

(** the sign of the leading Coulomb term is reversed with respect to Tsai's formula, which has
    - 1.202 (alpha Z)^2: the length is too short for every element without a tabulated value *)
Definition tsai (z : Z) (m : R) : R := 716405 / 1000 * m / (IZR z * IZR z * (logs z - 1202 / 1000 * alpha2 z + tail (alpha2 z))).
Theorem C46_coulomb_sign_refuted z m : (1 <= z <= 103)%Z -> 0 < m -> ~ In z pdg_elements ->
  exists r, radiation_length_z (F:=R) z m = Ok r /\ r < tsai z m.
Proof.
  intros Z M N. destruct (C46_element z m ltac:(lia) M) as (r & E & _ & _ & V). exists r. split; [exact E|]. rewrite (V N). unfold tsai, bracket.
  assert (ZR : 1 <= IZR z <= 103) by (split; apply IZR_le; lia).
  assert (FS : 7 / 1000 < fine_structure (F:=R) < 73 / 10000) by (unfold fine_structure; numR; dec_norm; lra).
  assert (A : 0 < alpha2 z < 6 / 10).
  { unfold alpha2. set (a := fine_structure) in *. clearbody a. assert (Q : 7 / 1000 < a * IZR z < 76 / 100) by nra.
    replace (a * a * (IZR z * IZR z)) with ((a * IZR z) * (a * IZR z)) by ring. set (q := a * IZR z) in *. clearbody q. nra. }
  assert (L : 3 / 4 < logs z).
  { unfold logs. assert (C : 1 <= Rpower (IZR z) (1 / 3) <= 5).
    { split; [apply (cube_root z); lia|]. apply Rle_trans with (Rpower (5 * 5 * 5) (1 / 3)); [apply Rle_Rpower_l; lra|].
      replace (5 * 5 * 5) with (Rpower 5 3) by (replace 3 with (INR 3) by (cbn [INR]; lra); rewrite Rpower_pow by lra; cbn [pow]; ring).
      rewrite Rpower_mult. replace (3 * (1 / 3)) with 1 by lra. rewrite Rpower_1 by lra. lra. }
    set (r0 := Rpower (IZR z) (1 / 3)) in *. clearbody r0.
    assert (I : 1 / 5 <= 1 / r0) by (unfold Rdiv; rewrite !Rmult_1_l; apply Rinv_le_contravar; lra).
    assert (L1 : 1 - 1 / 36 <= ln (18415 / 100 * (1 / r0))) by (apply ln_low; lra).
    assert (L2 : 1 - 1 / 40 <= ln (1194 * (1 / r0 * (1 / r0)))) by (apply ln_low; [lra|nra]).
    assert (0 <= ln (1194 * (1 / r0 * (1 / r0))) / IZR z) by (apply Rmult_le_pos; [lra|left; apply Rinv_0_lt_compat; lra]). lra. }
  pose proof (tail_nonneg (alpha2 z) ltac:(lra)) as T. set (t := tail (alpha2 z)) in *. set (a := alpha2 z) in *. set (l := logs z) in *.
  clearbody t a l. set (k := IZR z * IZR z). assert (K : 0 < k) by (unfold k; nra). clearbody k.
  assert (B1 : 0 < l - 1202 / 1000 * a + t) by lra.
  unfold Rdiv. apply Rmult_lt_compat_l; [lra|]. apply Rinv_lt_contravar.
  - apply Rmult_lt_0_compat; apply Rmult_lt_0_compat; lra.
  - apply Rmult_lt_compat_l; lra.
Qed.
Print Assumptions C46_coulomb_sign_refuted.

(** ** Materials: the weighted harmonic mean *)
Definition lengths_between (m : Material R) (lo hi : R) : Prop :=
  Forall (fun t => exists r, radiation_length_z (F:=R) (tZ t) (tA t) = Ok r /\ lo <= r <= hi) (m_atoms m).
Definition Rsum_w (m : Material R) : R := Rsum (map (wfrac m) (m_atoms m)).
Lemma radiation_fold (w : Target R -> R) lo hi l b : 0 < lo -> Forall (fun t => exists r, radiation_length_z (F:=R) (tZ t) (tA t) = Ok r /\ lo <= r <= hi) l ->
  (forall t, In t l -> 0 <= w t) ->
  exists s, ofold (fun sum t => r <- radiation_length_z (tZ t) (tA t) ;; Ok (fadd sum (fdiv (w t) r))) l b = Ok s /\
    b + Rsum (map w l) / hi <= s <= b + Rsum (map w l) / lo.
Proof.
  intros LO H W. revert b. induction l as [|t l IH]; intros b.
  - exists b. cbn [ofold map Rsum fold_right]. split; [reflexivity|]. unfold Rdiv. rewrite !Rmult_0_l. lra.
  - inversion H as [|? ? (r & E & B) H']; subst. cbn [ofold]. rewrite E. cbn [bind].
    destruct (IH H' (fun u U => W u (or_intror U)) (fadd b (fdiv (w t) r))) as (s & ES & BS). exists s. split; [exact ES|].
    revert BS. numR. intros BS. cbn [map]. unfold Rsum in *. cbn [fold_right]. set (S := fold_right Rplus 0 (map w l)) in *.
    pose proof (W t (or_introl eq_refl)) as WT. assert (I1 : / hi <= / r) by (apply Rinv_le_contravar; lra). assert (I2 : / r <= / lo) by (apply Rinv_le_contravar; lra).
    unfold Rdiv in *. split; nra.
Qed.
Theorem C46_material m lo hi : 0 < lo -> m_atoms m <> [] -> lengths_between m lo hi ->
  (forall t, In t (m_atoms m) -> 0 <= wfrac m t) -> Rsum_w m = 1 ->
  exists r, radiation_length (F:=R) m = Ok r /\ lo <= r <= hi.
Proof.
  intros LO NE H W S. unfold radiation_length. destruct (radiation_fold (wfrac m) lo hi (m_atoms m) (lit 0) LO H W) as (s & E & B).
  assert (HI : lo <= hi).
  { destruct (m_atoms m) as [|t l] eqn:EM; [contradiction|]. unfold lengths_between in H. rewrite EM in H. inversion H as [|? ? (r & _ & Q) _]; subst. lra. }
  rewrite E. cbn [bind]. eexists. split; [reflexivity|]. unfold Rsum_w in S. rewrite S in B. revert B. numR.
  replace (Rlit 0) with 0 by (dec_norm; lra). replace (Rlit 1) with 1 by (dec_norm; lra). intros B.
  assert (0 < 1 / hi) by (apply pos_quot; lra). replace lo with (1 / (1 / lo)) at 1 by (field; lra). replace hi with (1 / (1 / hi)) by (field; lra).
  unfold Rdiv. rewrite !Rmult_1_l in *. split; apply Rinv_le_contravar; lra.
Qed.
Print Assumptions C46_material.

(** a material with positive amounts always has a positive radiation length *)
Lemma radiation_positive m : solid m -> radiation_ok m -> positive (radiation_length (F:=R) m).
Proof.
  intros (NE & M & S) RO. unfold radiation_length, positive.
  assert (P : forall l b, Forall (fun t => 0 < tA t /\ (1 <= tZ t)%Z /\ 0 < tstn t) l -> Forall (fun t => (-46340 <= tZ t <= 46340)%Z) l -> 0 <= b -> 
    exists s, ofold (fun sum t => r <- radiation_length_z (tZ t) (tA t) ;; Ok (fadd sum (fdiv (wfrac m t) r))) l b = Ok s /\ b <= s /\ (l <> [] -> b < s)).
  { induction l as [|t l IH]; intros b H1 H2 B; [exists b; cbn [ofold]; repeat split; [lra|congruence]|].
    inversion H1 as [|? ? (A & Z & N) H1']; inversion H2 as [|? ? Z2 H2']; subst. cbn [ofold].
    destruct (C46_element (tZ t) (tA t) ltac:(lia) A) as (r & E & R0 & _). rewrite E. cbn [bind].
    pose proof (wfrac_pos m t M A N) as W. assert (0 < wfrac m t / r) by (apply pos_quot; assumption).
    destruct (IH (fadd b (fdiv (wfrac m t) r)) H1' H2') as (s & ES & BS & _); [numR; lra|]. exists s. split; [exact ES|]. revert BS. numR. intros BS. split; [lra|intros _; lra]. }
  destruct (P (m_atoms m) (lit 0) S RO) as (s & E & _ & L); [numR; dec_norm; lra|]. rewrite E. cbn [bind]. specialize (L NE).
  eexists. split; [reflexivity|]. revert L. numR. intros L. apply pos_quot; [dec_norm; lra|]. revert L. dec_norm. lra.
Qed.

(** ** Scattering power: not negative, zero only for a neutral particle *)
Theorem C46_scattering_power p m c : 0 < pT p -> 0 < pA p -> solid m -> radiation_ok m -> 0 <= c_sfac c ->
  exists v, da2dx (F:=R) p m c = Ok v /\ 0 <= v /\ (pZ p <> 0 -> 0 < c_sfac c -> 0 < v).
Proof.
  intros T A S RO SF. destruct (radiation_positive m S RO) as (x0 & EX & X0). unfold da2dx, angular_scattering_power. cbv zeta. rewrite EX. cbn [bind].
  destruct (C36_momentum (pT p) (pA p) (Rlt_le _ _ T)) as (PM & _ & PB). specialize (PB ltac:(lra)).
  destruct C36_beta as (_ & BP & _). specialize (BP _ T). destruct C36_gamma as (GP & _). specialize (GP _ (Rlt_le _ _ T)).
  assert (U : 0 < atomic_mass_unit (F:=R)) by (rewrite u0_eq; apply u0_pos).
  assert (MP : 0 < p_from_T (F:=R) (pT p) (pA p)) by (rewrite PM; apply Rmult_lt_0_compat; [apply Rmult_lt_0_compat; [apply Rmult_lt_0_compat; assumption|assumption]|lra]).
  change (Num.fleb (pT p) (lit 0)) with (Rleb (pT p) (Rlit 0)). destruct (Rleb_spec (pT p) (Rlit 0)) as [L|_]; [revert L; dec_norm; lra|].
  assert (ES : 0 < scattering_Es2 (F:=R) c).
  { assert (EQ : 0 < Es_squared (F:=R)).
    { unfold Es_squared, PI_, fine_structure_inverted, electron_mass. numR. dec_norm.
      assert (FS : 0 < fine_structure (F:=R)) by (unfold fine_structure; numR; dec_norm; lra). pose proof (pos_quot 1 _ Rlt_0_1 FS).
      repeat (apply Rmult_lt_0_compat; [|lra]); lra. }
    unfold scattering_Es2. destruct (c_scat c =? sc_fermi_rossi)%Z; [exact EQ|]. destruct (c_scat c =? sc_dhighland)%Z; [exact EQ|]. numR. dec_norm. lra. }
  cbn [bind]. eexists. split; [reflexivity|]. unfold ipow. cbn [Z.eqb Pos.eqb]. 
  match goal with |- context [fdiv (p_from_T ?a ?b) ?d] => replace (fdiv (p_from_T a b) d) with (beta_from_T (F:=R) (pT p)) by (symmetry; exact PB) end.
  set (q := p_from_T (pT p) (pA p)) in *. set (b := beta_from_T (pT p)) in *. set (e := scattering_Es2 c) in *. clearbody q b e. numR.
  assert (D : 0 < x0 * (q * b * (q * b))) by (repeat apply Rmult_lt_0_compat; assumption). set (d := x0 * (q * b * (q * b))) in *. clearbody d.
  pose proof (Rle_0_sqr (pZ p)) as SQ. unfold Rsqr in SQ. pose proof (Rinv_0_lt_compat _ D) as ID. split.
  - apply Rmult_le_pos; [exact SF|]. apply Rmult_le_pos; [|lra]. apply Rmult_le_pos; lra.
  - intros NZ SP. assert (0 < pZ p * pZ p) by (pose proof (Rsqr_pos_lt _ NZ) as H; exact H).
    apply Rmult_lt_0_compat; [exact SP|]. apply pos_quot; [|exact D]. apply Rmult_lt_0_compat; assumption.
Qed.
Print Assumptions C46_scattering_power.

(** so the tabulated angular variance never decreases up to 10 MeV/u *)
Theorem C46_table p m c st at_ : ion p -> solid m -> radiation_ok m -> 0 <= c_sfac c -> straggling_table p m c = Ok st -> angular_table p m c = Ok at_ ->
  forall i, (S i < 600)%nat -> energy (S i) <= 10 -> nth i at_ 0 <= nth (S i) at_ 0.
Proof.
  intros IO S RO SF HS HA i I E10. apply (C28_variances p m c st at_ i HS HA (Rlt_le _ _ (proj1 IO)) I).
  - intros x d X E. destruct (C42_dedx (at_T p x) m c) as (d' & E' & D'); cbn [at_T pT]; try assumption.
    + pose proof (energy_pos i ltac:(lia)). lra.
    + lra.
    + congruence.
  - intros x o X E. pose proof (energy_pos i ltac:(lia)).
    destruct (C46_scattering_power (at_T p x) m c) as (v & E' & V & _); cbn [at_T pT pA]; try assumption; [lra|apply IO|congruence].
Qed.
Print Assumptions C46_table.

(** ** Concrete case: water (hydrogen 63.04, oxygen 34.24) *)
Example C46_case : exists r, radiation_length (F:=R) (water 1) = Ok r /\ 3424 / 100 <= r <= 6304 / 100.
Proof.
  apply C46_material; [lra|discriminate| | |].
  - unfold lengths_between, water. cbn [m_atoms]. repeat (apply Forall_cons; [cbn [tZ tA]; eexists; (split; [reflexivity|]); numR; dec_norm; lra|]). apply Forall_nil.
  - intros t T. left. destruct T as [<-|[<-|[]]]; apply wfrac_pos; cbn; lra.
  - unfold Rsum_w, water, wfrac. cbn [m_atoms map tstn tA m_M Rsum fold_right]. unfold wfrac. cbn [tstn tA m_M]. numR.
    replace (Rlit 1) with 1 by (dec_norm; lra). replace (Rlit 1.0) with 1 by (dec_norm; lra).
    destruct (Rltb_spec 2 1); [lra|]. destruct (Rltb_spec 1 1); [lra|]. cbn. lra.
Qed.
