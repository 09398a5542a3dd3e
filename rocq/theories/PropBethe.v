(** * C52: the stopping power is positive at every energy *)
From Coq Require Import ZArith QArith Reals Qreals List Bool Lra Lia.
From Verif Require Import Num NumR Structures DataElements EnergyTable Integrator Calculations Storage Catima SpecData DataProofs GridProofs
  BoundsProofs TotalProofs EnergyOutProofs Cases PropTables PropMaterial PropKin PropDedx PropSrim PropZeff PropCorr PropStrag PropQuad PropApi ApiTotal History BetheProofs BetheBracket.
Import ListNotations.
Local Open Scope R_scope.
(** ** Which effective charges are not negative from 10 MeV/u on *)
Lemma exp_229 : exp (229 / 100) <= 10.
Proof.
  assert (E := exp_small (229 / 100 / 256) ltac:(lra)). assert (E0 : exp (229 / 100 / 256) <= 10090262 / 10000000) by lra. clear E.
  apply exp_up with (b := 10181339 / 10000000) in E0; [|lra].
  apply exp_up with (b := 10365967 / 10000000) in E0; [|lra].
  apply exp_up with (b := 10745328 / 10000000) in E0; [|lra].
  apply exp_up with (b := 11546208 / 10000000) in E0; [|lra].
  apply exp_up with (b := 13331492 / 10000000) in E0; [|lra].
  apply exp_up with (b := 17772868 / 10000000) in E0; [|lra].
  apply exp_up with (b := 31587484 / 10000000) in E0; [|lra].
  apply exp_up with (b := 99776915 / 10000000) in E0; [|lra].
  match type of E0 with exp ?x <= _ => replace x with (229 / 100) in E0 by lra end. lra.
Qed.

Lemma ln10_low : 229 / 100 <= ln 10.
Proof. apply Rnot_lt_le. intros L. apply exp_increasing in L. rewrite exp_ln in L by lra. pose proof exp_229. lra. Qed.
Lemma exp_eighth y : 0 <= y -> (1 + y / 8) ^ 8 <= exp y.
Proof.
  intros Y. replace y with (8 * (y / 8)) at 2 by field. assert (E : 0 <= 1 + y / 8 <= exp (y / 8)) by (split; [lra|apply exp_ineq1_le]).
  replace (exp (8 * (y / 8))) with (exp (y / 8) ^ 8). 2: { replace 8 with (INR 8) by (rewrite INR_IZR_INZ; reflexivity). set (w := y / INR 8). clearbody w. rewrite <- (Rpower_pow 8 (exp w)) by apply exp_pos. unfold Rpower. rewrite ln_exp. reflexivity. }
  apply pow_incr. exact E.
Qed.
Lemma damped x y : x <= (1 + y / 8) ^ 8 -> 0 <= y -> x * exp (- y) <= 1.
Proof.
  intros X Y. pose proof (exp_eighth y Y) as E. rewrite exp_Ropp. pose proof (exp_pos y) as P.
  apply Rmult_le_reg_r with (exp y); [exact P|]. rewrite Rmult_assoc, Rinv_l by lra. lra.
Qed.
Lemma pow8_mono a y : 0 <= a <= y -> (1 + a / 8) ^ 8 <= (1 + y / 8) ^ 8.
Proof. intros H. apply pow_incr. lra. Qed.

(** a power with a fractional exponent a / b below a bound checked by the b-th power *)
Lemma frac_pow x B a b q : 1 <= x -> 0 < B -> (0 < b)%nat -> x ^ a <= B ^ b -> q <= INR a / INR b -> 1 / B <= Rpow_c x (- q).
Proof.
  intros X B0 Bn H Q. rewrite Rpow_pos by lra. unfold Rpower.
  assert (LX : 0 <= ln x) by (destruct X as [X| <-]; [left; rewrite <- ln_1; apply ln_increasing; lra|rewrite ln_1; lra]).
  assert (BI : 0 < INR b) by (apply lt_0_INR; lia).
  assert (L : INR a * ln x <= INR b * ln B).
  { apply Rnot_lt_le. intros C. apply exp_increasing in C. revert C. change (exp (INR b * ln B) < exp (INR a * ln x) -> False).
    fold (Rpower B (INR b)) (Rpower x (INR a)). rewrite !Rpower_pow by lra. lra. }
  assert (M : q * ln x <= ln B).
  { apply Rle_trans with (INR a / INR b * ln x); [apply Rmult_le_compat_r; assumption|].
    apply Rmult_le_reg_l with (INR b); [exact BI|]. replace (INR b * (INR a / INR b * ln x)) with (INR a * ln x) by (field; lra). exact L. }
  replace (1 / B) with (exp (- ln B)) by (rewrite exp_Ropp, exp_ln by exact B0; unfold Rdiv; ring). apply exp_mono. lra.
Qed.
Lemma ten_pow T q : 10 <= T -> 0 <= q -> (1 + q * (229 / 100) / 8) ^ 8 <= Rpow_c T q.
Proof.
  intros T10 Q. rewrite Rpow_pos by lra. unfold Rpower. assert (229 / 100 <= ln T).
  { pose proof ln10_low. apply Rle_trans with (ln 10); [lra|]. destruct T10 as [H1| <-]; [left; apply ln_increasing; lra|lra]. }
  eapply Rle_trans; [apply exp_eighth; nra|]. apply exp_mono. nra.
Qed.

Lemma anthony_nonneg z T tz : 1 <= z < 109 -> 10 <= T -> 1 <= tz <= 120 -> 0 <= z_eff_Anthony_Landford (F:=R) z (beta_from_T T) tz.
Proof.
  intros Z T10 TZ. rewrite al_form. apply Rmult_le_pos; [lra|].
  assert (A : 0 < al_A tz <= 116 / 100) by (split; [apply al_A_pos|unfold al_A; nra]).
  assert (B : 86 / 100 <= al_B tz) by (unfold al_B; pose proof (Rle_0_sqr (tz - 828 / 10)) as SQ; unfold Rsqr in SQ; lra).
  assert (F : 137 <= fine_structure_inverted (F:=R)) by (unfold fine_structure_inverted, fine_structure; numR; dec_norm; lra).
  assert (BT : 14 / 100 <= beta_from_T T).
  { pose proof (eta2_low T T10) as E. unfold eta2 in E. rewrite beta_R. assert (GE : 1 <= 1 + T / u0) by (apply gamma_ge1; lra). set (g := 1 + T / u0) in *. clearbody g.
    rewrite <- (sqrt_square (14 / 100)) by lra. apply sqrt_le_1_alt. apply Rmult_le_reg_r with (g * g); [nra|].
    replace ((1 - 1 / (g * g)) * (g * g)) with (g * g - 1) by (field; lra). nra. }
  assert (P : 1 / 23 <= Rpow_c z (- (2 / 3))).
  { apply (frac_pow z 23 2 3); [lra|lra|lia| |replace (INR 2) with 2 by (rewrite INR_IZR_INZ; reflexivity); replace (INR 3) with 3 by (rewrite INR_IZR_INZ; reflexivity); lra].
    apply Rle_trans with (109 ^ 2); [apply pow_incr; lra|simpl; lra]. }
  replace (fine_structure_inverted (F:=R) * al_B tz / Rpow_c z (2 / 3)) with (fine_structure_inverted * al_B tz * Rpow_c z (- (2 / 3))).
  2: { unfold Rdiv. f_equal. rewrite !Rpow_pos by lra. apply Rpower_Ropp. }
  set (f := fine_structure_inverted) in *. set (b := al_B tz) in *. set (k := Rpow_c z (- (2 / 3))) in *. set (s := beta_from_T T) in *. set (a := al_A tz) in *. clearbody f b k s a.
  assert (Q1 : 11782 / 100 <= f * b) by nra. assert (Q2 : 5 <= f * b * k) by nra. assert (Q3 : 7 / 10 <= f * b * k * s) by nra.
  replace (- (f * b * k) * s) with (- (f * b * k * s)) by ring. set (y := f * b * k * s) in *.
  pose proof (damped a y) as D. assert (U := pow8_mono (7 / 10) y ltac:(lra)). assert ((1 + 7 / 10 / 8) ^ 8 >= 116 / 100) by (simpl; lra). lra.
Qed.

Lemma hubert_nonneg z T tz : 1 <= z < 109 -> 10 <= T -> 1 <= tz <= 120 -> 0 <= z_eff_Hubert (F:=R) z T tz.
Proof.
  intros Z T10 TZ. unfold z_eff_Hubert. cbv zeta. numR. destruct (Rltb_spec T (Rlit 2.5)) as [_|_]; [dec_norm; lra|].
  replace (Rlit 1) with 1 by (dec_norm; lra).
  assert (LN : 0 <= ln tz) by (destruct (proj1 TZ) as [L|<-]; [left; rewrite <- ln_1; apply ln_increasing; lra|rewrite ln_1; lra]).
  assert (LU : ln tz <= 57 / 10).
  { apply Rnot_lt_le. intros L. apply exp_increasing in L. rewrite exp_ln in L by lra. revert L.
    replace (57 / 10) with (1 + (1 + (1 + (1 + (1 + 7 / 10))))) by lra. rewrite !exp_plus.
    pose proof (exp_eighth 1 ltac:(lra)) as E1. assert (E2 : 25 / 10 <= exp 1) by (eapply Rle_trans; [|exact E1]; simpl; lra). pose proof (exp_ineq1_le (7 / 10)) as E3.
    set (w := exp 1) in *. set (v := exp (7 / 10)) in *. clearbody w v. intros L.
    assert (W2 : 17 / 10 * (25 / 10) <= w * v) by nra. assert (W3 : 17 / 10 * (25 / 10) * (25 / 10) <= w * (w * v)) by nra.
    assert (W4 : 17 / 10 * (25 / 10) * (25 / 10) * (25 / 10) <= w * (w * (w * v))) by nra. assert (W5 : 17 / 10 * (25 / 10) * (25 / 10) * (25 / 10) * (25 / 10) <= w * (w * (w * (w * v)))) by nra. nra. }
  assert (I1 : INR 2 = 2 /\ INR 3 = 3 /\ INR 5 = 5 /\ INR 7 = 7) by (rewrite !INR_IZR_INZ; repeat split; reflexivity). destruct I1 as (J2 & J3 & J5 & J7).
  assert (EX : forall k, 0 <= k -> 0 < exp (- k * z) <= 1).
  { intros k K. split; [apply exp_pos|]. apply Rle_trans with (exp 0); [apply exp_mono; nra|rewrite exp_0; lra]. }
  assert (FIN : forall x1 x2 x3 x4 a, 0 < x2 -> 0 <= a <= x2 * Rpow_c T x3 * Rpow_c z (- x4) -> x1 <= (1 + a / 8) ^ 8 ->
     0 <= z * (1 - x1 * exp (- x2 * Rpow_c T x3 * Rpow_c z (- x4)))).
  { intros x1 x2 x3 x4 a X2 A X1. apply Rmult_le_pos; [lra|]. replace (- x2 * Rpow_c T x3 * Rpow_c z (- x4)) with (- (x2 * Rpow_c T x3 * Rpow_c z (- x4))) by ring.
    pose proof (damped x1 (x2 * Rpow_c T x3 * Rpow_c z (- x4))) as D. pose proof (pow8_mono a _ A). lra. }
  destruct (Reqb tz (Rlit 4)); [|destruct (Reqb tz (Rlit 6))].
  - replace (Rlit 2.045) with (2045 / 1000) by (dec_norm; lra). replace (Rlit 2.0) with (2) by (dec_norm; lra). replace (Rlit (-0.04369)) with (- (4369 / 100000)) by (dec_norm; lra).
    pose proof (EX (4369 / 100000) ltac:(lra)). apply FIN with (a := 1679 / 1000).
    + dec_norm. lra.
    + replace (Rlit 7.0) with 7 by (dec_norm; lra). replace (Rlit 0.2643) with (2643 / 10000) by (dec_norm; lra). replace (Rlit 0.4171) with (4171 / 10000) by (dec_norm; lra).
      pose proof (ten_pow T (2643 / 10000) T10 ltac:(lra)) as P1. assert (P2 : 1 / (747 / 100) <= Rpow_c z (- (4171 / 10000))).
      { apply (frac_pow z (747 / 100) 3 7); [lra|lra|lia| |rewrite J3, J7; lra]. apply Rle_trans with (109 ^ 3); [apply pow_incr; lra|simpl; lra]. }
      assert (P3 : 1792 / 1000 <= Rpow_c T (2643 / 10000)) by (eapply Rle_trans; [|exact P1]; simpl; lra).
      set (u := Rpow_c T _) in *. set (v := Rpow_c z _) in *. clearbody u v. nra.
    + apply Rle_trans with (4045 / 1000); [lra|simpl; lra].
  - replace (Rlit 2.584) with (2584 / 1000) by (dec_norm; lra). replace (Rlit 1.91) with (191 / 100) by (dec_norm; lra). replace (Rlit (-0.03958)) with (- (3958 / 100000)) by (dec_norm; lra).
    pose proof (EX (3958 / 100000) ltac:(lra)). apply FIN with (a := 1815 / 1000).
    + dec_norm. lra.
    + replace (Rlit 6.933) with (6933 / 1000) by (dec_norm; lra). replace (Rlit 0.2433) with (2433 / 10000) by (dec_norm; lra). replace (Rlit 0.3969) with (3969 / 10000) by (dec_norm; lra).
      pose proof (ten_pow T (2433 / 10000) T10 ltac:(lra)) as P1. assert (P2 : 1 / (654 / 100) <= Rpow_c z (- (3969 / 10000))).
      { apply (frac_pow z (654 / 100) 2 5); [lra|lra|lia| |rewrite J2, J5; lra]. apply Rle_trans with (109 ^ 2); [apply pow_incr; lra|simpl; lra]. }
      assert (P3 : 1713 / 1000 <= Rpow_c T (2433 / 10000)) by (eapply Rle_trans; [|exact P1]; simpl; lra).
      set (u := Rpow_c T _) in *. set (v := Rpow_c z _) in *. clearbody u v. nra.
    + apply Rle_trans with (4494 / 1000); [lra|simpl; lra].
  - replace (Rlit 1.164) with (1164 / 1000) by (dec_norm; lra). replace (Rlit 0.2319) with (2319 / 10000) by (dec_norm; lra). replace (Rlit (-0.004302)) with (- (4302 / 1000000)) by (dec_norm; lra). replace (Rlit 1.658) with (1658 / 1000) by (dec_norm; lra). replace (Rlit (-0.0517)) with (- (517 / 10000)) by (dec_norm; lra).
    pose proof (EX (517 / 10000) ltac:(lra)) as EZ. assert (ET : exp (- (4302 / 1000000) * tz) <= 1) by (apply Rle_trans with (exp 0); [apply exp_mono; lra|rewrite exp_0; lra]).
    set (x2 := Rlit 8.144 + Rlit 0.09876 * ln tz). assert (X2 : 8144 / 1000 <= x2) by (unfold x2; dec_norm; lra).
    set (x3 := Rlit 0.314 + Rlit 0.01072 * ln tz). assert (X3 : 314 / 1000 <= x3) by (unfold x3; dec_norm; lra).
    set (x4 := Rlit 0.5218 + Rlit 0.02521 * ln tz). assert (X4 : x4 <= 2 / 3) by (unfold x4; dec_norm; lra). clearbody x2 x3 x4.
    assert (P3 : 199 / 100 <= Rpow_c T x3).
    { eapply Rle_trans; [|apply ten_pow; lra]. eapply Rle_trans; [|apply pow_incr; split; [|apply Rplus_le_compat_l with (r2 := x3 * (229 / 100) / 8); instantiate (1 := 314 / 1000 * (229 / 100) / 8); lra]; lra]. simpl. lra. }
    destruct (Rle_lt_dec z 40) as [ZL|ZH].
    + assert (P2 : 1 / (117 / 10) <= Rpow_c z (- x4)).
      { apply (frac_pow z (117 / 10) 2 3); [lra|lra|lia| |rewrite J2, J3; exact X4]. apply Rle_trans with (40 ^ 2); [apply pow_incr; lra|simpl; lra]. }
      apply FIN with (a := 1385 / 1000); [lra| |apply Rle_trans with (3054 / 1000); [lra|simpl; lra]].
      set (u := Rpow_c T _) in *. set (v := Rpow_c z _) in *. clearbody u v. assert (16206 / 1000 <= x2 * u) by nra. nra.
    + assert (P2 : 1 / 23 <= Rpow_c z (- x4)).
      { apply (frac_pow z 23 2 3); [lra|lra|lia| |rewrite J2, J3; exact X4]. apply Rle_trans with (109 ^ 2); [apply pow_incr; lra|simpl; lra]. }
      assert (E4 : exp (- (517 / 10000) * z) <= 16 / 100).
      { apply Rle_trans with (exp (- (2068 / 1000))); [apply exp_mono; lra|]. rewrite exp_Ropp. pose proof (exp_eighth (2068 / 1000) ltac:(lra)) as E.
        assert (E6 : 100 / 16 <= exp (2068 / 1000)) by (eapply Rle_trans; [|exact E]; simpl; lra). apply Rle_trans with (/ (100 / 16)); [apply Rinv_le_contravar; lra|lra]. }
      apply FIN with (a := 7 / 10); [lra| |apply Rle_trans with (167 / 100); [lra|simpl; lra]].
      set (u := Rpow_c T _) in *. set (v := Rpow_c z _) in *. clearbody u v. assert (16206 / 1000 <= x2 * u) by nra. nra.
Qed.

(** every choice except Winger's formula and the global formula; the charge given with the ion counts
    when no formula is chosen *)
Definition charge_formula (Q : R) (c : Config R) : Prop :=
  (c_zeff c = z_none -> 0 <= Q) /\ c_zeff c <> z_winger /\ c_zeff c <> z_global.
Theorem C52_charge p t c : 1 <= pZ p < 109 -> 10 <= pT p -> (1 <= tZ t <= 120)%Z -> charge_formula (pQ p) c -> 0 <= z_effective (F:=R) p t c.
Proof.
  intros Z T TZ (N & W & G). assert (TR : 1 <= IZR (tZ t) <= 120) by (split; apply IZR_le; lia).
  destruct (Z.eq_dec (c_zeff c) z_none) as [E|E0]; [rewrite C40_none by exact E; auto|].
  destruct (Z.eq_dec (c_zeff c) z_pierce_blann) as [E|E1].
  { destruct p as [A z Q T']. cbn [pT pZ] in *. apply (C40_pierce_blann A z Q t c E); lra. }
  destruct (Z.eq_dec (c_zeff c) z_schiwietz) as [E|E2].
  { pose proof (C40_schiwietz p t c E ltac:(lra) ltac:(lra) ltac:(lia)). lra. }
  unfold z_effective. rewrite (proj2 (Z.eqb_neq _ _) E0), (proj2 (Z.eqb_neq _ _) E1), (proj2 (Z.eqb_neq _ _) W), (proj2 (Z.eqb_neq _ _) G), (proj2 (Z.eqb_neq _ _) E2). cbv zeta.
  rewrite zeff_beta. destruct (c_zeff c =? z_anthony_landorf)%Z; [now apply anthony_nonneg|].
  destruct (c_zeff c =? z_hubert)%Z; [now apply hubert_nonneg|].
  destruct (c_zeff c =? z_atima14)%Z; [unfold z_eff_atima14|]; numR; dec_norm; lra.
Qed.
Print Assumptions C52_charge.

(** ** The stopping power *)
(** a material of elements up to 120 whose mean ionisation energy is left to the library or is not
    larger than the library's own values *)
Definition known_material (m : Material R) : Prop :=
  solid m /\ Forall (fun t => (tZ t <= 120)%Z /\ plausible_I (m_I m) (tZ t)) (m_atoms m).

Theorem C52_bethe p m c : isotope p -> 0 < pA p -> 10 <= pT p -> (corr_has c no_lindhard = false -> ~ just_below_table_end (pT p)) ->
  known_material m -> charge_formula (pQ p) c ->
  exists b, bethek_dedx_e (F:=R) p m c = Ok b /\ 0 <= b.
Proof.
  intros IP A T SF [(_ & M & S) K] CF. unfold bethek_dedx_e.
  assert (SF' : corr_has c no_lindhard = false -> ls_safe (pT p)) by (intros H; apply safe_iff; auto).
  assert (P : forall l b, (forall t, In t l -> (0 < tA t /\ (1 <= tZ t)%Z /\ 0 < tstn t) /\ (tZ t <= 120)%Z /\ plausible_I (m_I m) (tZ t)) -> 0 <= b ->
    exists v, ofold (fun sum t => d <- bethek_dedx_e_t p t c (m_I m) ;; Ok (fadd sum (fmul (wfrac m t) d))) l b = Ok v /\ 0 <= v).
  { induction l as [|t l IH]; intros b H B; [exists b; auto|]. cbn [ofold].
    destruct (H t (or_introl eq_refl)) as ((TA & TZ & N) & TZ' & PI).
    destruct (bethe_target p t c (m_I m) IP A T SF' (conj TZ TZ') TA PI) as (v & E & V).
    { intros _. apply C52_charge; [apply IP|exact T|lia|exact CF]. }
    rewrite E. cbn [bind]. apply IH; [intros u U; apply H; now right|]. pose proof (wfrac_pos m t M TA N). numR. assert (0 <= wfrac m t * v) by (apply Rmult_le_pos; lra). lra. }
  apply P; [|numR; dec_norm; lra]. rewrite Forall_forall in S, K. auto.
Qed.
Print Assumptions C52_bethe.

Lemma isotope_ion p : isotope p -> 0 < pA p -> ion p. Proof. intros [Z _] A. unfold ion. lra. Qed.
(** positive whenever it has a value, and it has one away from the last 2e-15 MeV/u below the end of
    the tables *)
Theorem C52_positive p m c : isotope p -> 0 < pA p -> 0 < pT p -> known_material m -> charge_formula (pQ p) c ->
  (forall d, dedx (F:=R) p m c = Ok d -> 0 < d) /\
  (~ just_below_table_end (pT p) -> positive (dedx (F:=R) p m c)).
Proof.
  intros IP A T KM CF. pose proof (isotope_ion p IP A) as IO. destruct KM as [SO K].
  assert (SF : forall d, dedx (F:=R) p m c = Ok d -> corr_has c no_lindhard = false -> ~ just_below_table_end (pT p)).
  { intros d E NL J. assert (C : dedx p m c = UB OutOfBounds).
    { apply C38_table_end_refuted; [apply IP|apply SO| |exact J|exact NL]. intros t IN. destruct SO as (_ & _ & F). rewrite Forall_forall in F. apply (F t IN). }
    rewrite C in E. discriminate E. }
  assert (D : exists v, dedx p m c = Ok v \/ just_below_table_end (pT p)).
  { destruct (Classical_Prop.classic (just_below_table_end (pT p))) as [J|J]; [exists 0; now right|].
    destruct (proj1 (C38_in_bounds p m c ltac:(apply IP) ltac:(intros t IN; destruct SO as (_ & _ & F); rewrite Forall_forall in F; apply (F t IN)) J)) as [v V]. exists v. now left. }
  assert (Q : forall d, dedx (F:=R) p m c = Ok d -> 0 < d).
  { intros d E. specialize (SF d E). assert (NP : 0 < dedx_n p m) by (apply nuclear_sum_pos; [exact T|exact A|destruct IP as [Z _]; lra|exact SO]).
    destruct (Rle_lt_dec (pT p) 10) as [L|H].
    { destruct (C42_dedx p m c T L IO SO) as (d' & E' & D'). congruence. }
    destruct (C52_bethe p m c IP A ltac:(lra) SF (conj SO K) CF) as (b & EB & B).
    destruct (Rle_lt_dec 30 (pT p)) as [H3|H3].
    - rewrite (C37_high p m c H3 b EB) in E. injection E as <-. lra.
    - destruct (sezi_pos p m c T IO SO) as (s & ES & PS). destruct (C37_between p m c H H3 s b ES EB) as (e & EE & _ & (EL & _) & _).
      rewrite EE in E. injection E as <-. assert (0 <= e); [|lra]. eapply Rle_trans; [|exact EL]. apply Rmin_glb; lra. }
  split; [exact Q|]. intros J. destruct D as (v & [E|C]); [|contradiction]. exists v. split; [exact E|now apply Q].
Qed.
Print Assumptions C52_positive.

(** ** The tables computed from it *)
(** all 600 ranges strictly increase *)
Theorem C52_ranges p m c rt : isotope p -> 0 < pA p -> known_material m -> charge_formula (pQ p) c -> range_table p m c = Ok rt ->
  nth 0 rt 0 = 0 /\ forall i j, (i < j < 600)%nat -> nth i rt 0 < nth j rt 0.
Proof.
  intros IP A KM CF RT. apply (C28_whole_table p m c rt RT A). intros x d X E. pose proof (energy_pos 0 ltac:(lia)).
  exact (proj1 (C52_positive (at_T p x) m c IP A ltac:(cbn [at_T pT]; lra) KM CF) d E).
Qed.
Print Assumptions C52_ranges.
(** .. and so do the ranges returned for the 600 energies, whatever was computed before *)
Theorem C52_range_api (junk : nat -> R * R) h w p m c i j : exec_all junk h world0 = Ok w -> world_ok w -> legit_p p -> legit_t m ->
  isotope p -> known_material m -> charge_formula (pQ p) c -> (i < j < 600)%nat ->
  exists ri rj wi wj, range junk (at_T p (energy i)) m c w = Ok (ri, wi) /\ range junk (at_T p (energy j)) m c w = Ok (rj, wj) /\ ri < rj.
Proof.
  intros E W LP LM IP KM CF IJ. destruct (range_at_node junk h w p m c i E W LP LM ltac:(lia)) as (rt & wi & RT & RI).
  destruct (range_at_node junk h w p m c j E W LP LM ltac:(lia)) as (rt' & wj & RT' & RJ).
  assert (rt' = rt) by congruence. subst rt'. do 4 eexists. split; [exact RI|]. split; [exact RJ|].
  apply (C52_ranges p m c rt); try assumption. apply LP.
Qed.
Print Assumptions C52_range_api.
(** the straggling never decreases up to the energy where the tables of Lindhard-Sorensen vanish *)
Theorem C52_straggling p m c st : isotope p -> 0 < pA p -> known_material m -> charge_formula (pQ p) c ->
  (exists at_, angular_table p m c = Ok at_) -> straggling_table p m c = Ok st ->
  forall i, (S i < 600)%nat -> energy (S i) <= 400000 -> nth i st 0 <= nth (S i) st 0.
Proof.
  intros IP A KM CF [at_ HA] HS i I E4. apply (C28_variances p m c st at_ i HS HA (Rlt_le _ _ A) I).
  - intros x d X E. pose proof (energy_pos i ltac:(lia)). exact (proj1 (C52_positive (at_T p x) m c IP A ltac:(cbn [at_T pT]; lra) KM CF) d E).
  - intros x o X E. pose proof (energy_pos i ltac:(lia)).
    destruct (C50_material (at_T p x) m c IP ltac:(cbn [at_T pT]; lra) (proj1 KM)) as (v & E' & V). congruence.
Qed.
Print Assumptions C52_straggling.
(** the time of flight is positive for an ion that is slowed down *)
Theorem C52_time_of_flight p Eout m c tof : isotope p -> 0 < pA p -> known_material m -> 0 < m_rho m -> charge_formula (pQ p) c ->
  0 <= Eout < pT p -> calculate_tof_from_E p Eout m c = Ok tof -> 0 < tof.
Proof.
  intros IP A KM RH CF EO H. unfold calculate_tof_from_E in H.
  destruct C26_library as [IN L]. rewrite L in H.
  destruct (quad _ (tof_integrand p m c) Eout (pT p)) as [r|] eqn:ER; [|discriminate H]. cbn [bind] in H. injection H as <-.
  assert (RP : 0 < r).
  { apply (C26_positive _ (tof_integrand p m c) Eout (pT p) r IN); [apply EO| |exact ER].
    intros x u X. unfold tof_integrand. destruct (dedx (at_T p x) m c) as [d|] eqn:ED; [|discriminate]. cbn [bind]. intros U. injection U as <-.
    assert (D : 0 < d) by (exact (proj1 (C52_positive (at_T p x) m c IP A ltac:(cbn [at_T pT]; lra) KM CF) d ED)).
    assert (B : 0 < beta_from_T x) by (apply C36_beta; lra). numR. apply pos_quot; [dec_norm; lra|]. apply Rmult_lt_0_compat; assumption. }
  unfold tof_scale. numR. apply pos_quot; [|apply Rmult_lt_0_compat; [unfold c_light; numR; dec_norm; lra|exact RH]].
  apply Rmult_lt_0_compat; [|exact A]. apply Rmult_lt_0_compat; [exact RP|dec_norm; lra].
Qed.
Print Assumptions C52_time_of_flight.

(** ** A concrete case: carbon ions of 1000 MeV/u in water *)
Lemma carbon_isotope T : isotope (carbon T).
Proof.
  unfold isotope, carbon. cbn [pZ pA]. assert (FL : Rfloor_Z 6 = 6%Z).
  { destruct (Rfloor_bound 6) as [B1 B2]. assert (Rfloor_Z 6 <= 6)%Z by (apply le_IZR; exact B1). assert (5 < Rfloor_Z 6)%Z by (apply lt_IZR; lra). lia. }
  rewrite FL. change (element_atomic_weight (F:=R) 6) with (Rlit 12.0107). dec_norm. lra.
Qed.
Lemma water_known th : known_material (water th).
Proof.
  split.
  - unfold solid, water. cbn [m_atoms m_M]. split; [discriminate|]. split; [lra|].
    apply Forall_cons; [cbn [tZ tA tstn]; split; [lra|split; [lia|lra]]|]. apply Forall_cons; [cbn [tZ tA tstn]; split; [lra|split; [lia|lra]]|apply Forall_nil].
  - unfold water. cbn [m_atoms m_I]. apply Forall_cons; [|apply Forall_cons; [|apply Forall_nil]]; (split; [cbn [tZ]; lia|intros H; lra]).
Qed.
Lemma default_charge Q : charge_formula Q conf.
Proof. unfold charge_formula. change (c_zeff conf) with 1%Z. unfold z_none, z_winger, z_global. repeat split; lia. Qed.
Example C52_case : positive (dedx (F:=R) (carbon 1000) (water 1) conf) /\
  exists r1 r2 w1 w2, range junk0 (at_T (carbon 0) (energy 0)) (water 1) conf world0 = Ok (r1, w1) /\
    range junk0 (at_T (carbon 0) (energy 599)) (water 1) conf world0 = Ok (r2, w2) /\ r1 < r2.
Proof.
  split.
  - apply C52_positive; [apply carbon_isotope|cbn; lra|cbn; lra|apply water_known|apply default_charge|].
    unfold just_below_table_end. cbn [pT carbon]. pose proof eps_small. pose proof table_end_high. lra.
  - apply (C52_range_api junk0 [] world0); [reflexivity|apply world_ok0|apply carbon_legit|apply water_legit|apply carbon_isotope|apply water_known|apply default_charge|lia].
Qed.
Example C52_case_tof : exists tof, calculate_tof_from_E (carbon 1000) 500 (water 1) conf = Ok tof /\ 0 < tof.
Proof.
  pose proof glast_high. destruct (tof_ok (carbon 1000) (water 1) conf 500) as [tof E]; [apply carbon_legit|apply water_legit|cbn [carbon pT]; lra|lra|].
  exists tof. split; [exact E|]. apply (C52_time_of_flight (carbon 1000) 500 (water 1) conf); [apply carbon_isotope|cbn; lra|apply water_known|cbn; lra|apply default_charge|cbn; lra|exact E].
Qed.
