(** * Pair production and bremsstrahlung of protons in nitrogen above 50 GeV *)
From Coq Require Import ZArith QArith Reals Qreals List Bool Lra Lia.
From Verif Require Import Num NumR Structures Calculations GridProofs BoundsProofs EnergyOutProofs PropKin PropDedx PropCorr BetheProofs BetheBracket LnBounds PropLSTable PropFormula Near ProtonStopping.
Import ListNotations.
Local Open Scope R_scope.

Definition screening : R := 183 / Rpower 7 (1 / 3).
Definition arg0 (g : R) : R := / screening + 25018803808 / 1000000000 / g.
Definition pi2 : R := PI_ (F:=R) ^ 2.
Definition poly (u : R) : R := 4178 / (81 * pi2) - 21 / 27 - 248 * (ln 2 + u) / (27 * pi2) - (28 * (ln 2 + u) / 9 - 446 / 27) * u / pi2 + 14 * u ^ 2 / (9 * pi2).
Definition pairL (g : R) : R := - (19 / 9) * ln (arg0 g) + poly (ln g) / sqrt g.

Lemma screening_range : 95 <= screening <= 96.
Proof.
  unfold screening. assert (C : forall a, 0 < a -> Rpower (a ^ 3) (1 / 3) = a).
  { intros a A. rewrite <- Rpower_pow by exact A. rewrite Rpower_mult. replace (INR 3 * (1 / 3)) with 1 by (rewrite INR_IZR_INZ; simpl; field). apply Rpower_1. exact A. }
  assert (L : 191 / 100 <= Rpower 7 (1 / 3)) by (rewrite <- (C (191 / 100)) by lra; apply Rle_Rpower_l; lra).
  assert (U : Rpower 7 (1 / 3) <= 192 / 100) by (rewrite <- (C (192 / 100)) by lra; apply Rle_Rpower_l; lra).
  set (r := Rpower 7 (1 / 3)) in *. clearbody r. split; apply (Rmult_le_reg_r r); try lra; replace (183 / r * r) with 183 by (field; lra); lra.
Qed.
Lemma pi2_range : 98 / 10 <= pi2 <= 99 / 10.
Proof. unfold pi2, PI_. numR. dec_norm. lra. Qed.
Lemma poly_form u : poly u = (4178 / 81 - 248 / 27 * ln 2) / pi2 - 21 / 27 + ((446 / 27 - 248 / 27 - 28 / 9 * ln 2) / pi2) * u - 14 / 9 / pi2 * (u * u).
Proof. unfold poly. pose proof pi2_range. field. lra. Qed.
Lemma coeffs_range : 45 / 10 <= (4178 / 81 - 248 / 27 * ln 2) / pi2 <= 47 / 10 /\ 51 / 100 <= (446 / 27 - 248 / 27 - 28 / 9 * ln 2) / pi2 <= 54 / 100 /\ 157 / 1000 <= 14 / 9 / pi2 <= 159 / 1000.
Proof.
  pose proof pi2_range as P. pose proof (ln_between 2 1 693147 693148 ltac:(vm_compute; reflexivity)) as L. replace (2 / 1) with 2 in L by field. set (l := ln 2) in *. clearbody l.
  assert (D : forall n lo hi, lo * (99 / 10) <= n -> n <= hi * (98 / 10) -> 0 <= lo -> 0 <= hi -> lo <= n / pi2 <= hi).
  { intros n lo hi A B C E. split; apply (Rmult_le_reg_r pi2); try lra; replace (n / pi2 * pi2) with n by (field; lra); nra. }
  split; [apply D; lra|split; apply D; lra].
Qed.
Lemma poly_range u : 39 / 10 <= u <= 93 / 10 -> - 6 <= poly u <= 6.
Proof. intros U. rewrite poly_form. destruct coeffs_range as (A & B & C). set (a := (4178 / 81 - 248 / 27 * ln 2) / pi2) in *. set (b := (446 / 27 - 248 / 27 - 28 / 9 * ln 2) / pi2) in *. set (c := 14 / 9 / pi2) in *. clearbody a b c. replace (a - 21 / 27 + b * u - c * (u * u)) with (a - 21 / 27 + u * (b - c * u)) by ring. assert (CU : 157 / 1000 * (39 / 10) <= c * u <= 159 / 1000 * (93 / 10)) by (split; apply Rmult_le_compat; lra). assert (K : - (97 / 100) <= b - c * u <= 0) by lra. set (k := b - c * u) in *. clearbody k. clear CU B C. assert (UK : - (903 / 100) <= u * k <= 0) by (split; nra). lra. Qed.
Lemma poly_step u v : 39 / 10 <= u -> u <= v -> v <= u + 4 / 100 -> v <= 93 / 10 -> - (11 / 100) <= poly v - poly u <= 0.
Proof.
  intros U UV VU V. rewrite !poly_form. destruct coeffs_range as (A & B & C). set (a := (4178 / 81 - 248 / 27 * ln 2) / pi2) in *. set (b := (446 / 27 - 248 / 27 - 28 / 9 * ln 2) / pi2) in *. set (c := 14 / 9 / pi2) in *. clearbody a b c.
  replace (a - 21 / 27 + b * v - c * (v * v) - (a - 21 / 27 + b * u - c * (u * u))) with ((v - u) * (b - c * (u + v))) by ring.
  assert (CU : 157 / 1000 * (78 / 10) <= c * (u + v) <= 159 / 1000 * (186 / 10)) by (split; apply Rmult_le_compat; lra). assert (K : - (25 / 10) <= b - c * (u + v) <= 0) by lra. set (k := b - c * (u + v)) in *. clearbody k. clear CU B C. split; nra.
Qed.

Section Range.
  Variable g : R.
  Hypothesis G : 54 <= g <= 10800.
  Lemma ln_g : 39 / 10 <= ln g <= 93 / 10.
  Proof.
    pose proof (ln_between 54 1 3980000 3990000 ltac:(vm_compute; reflexivity)) as A. pose proof (ln_between 10800 1 9280000 9290000 ltac:(vm_compute; reflexivity)) as B. replace (54 / 1) with 54 in A by field. replace (10800 / 1) with 10800 in B by field.
    pose proof (ln_le_mono 54 g ltac:(lra) ltac:(lra)). pose proof (ln_le_mono g 10800 ltac:(lra) ltac:(lra)). lra.
  Qed.
  Lemma root_g : 0 < / sqrt g <= 1361 / 10000.
  Proof.
    assert (73484 / 10000 <= sqrt g) by (rewrite <- (sqrt_square (73484 / 10000)) by lra; apply sqrt_le_1_alt; lra). split; [apply Rinv_0_lt_compat; lra|].
    apply Rle_trans with (/ (73484 / 10000)); [apply Rinv_le_contravar; lra|lra].
  Qed.
  Lemma arg0_range : 1 / 96 <= arg0 g <= 475 / 1000.
  Proof.
    unfold arg0. pose proof screening_range as S. assert (I1 : 1 / 96 <= / screening <= 1 / 95) by (unfold Rdiv; rewrite !Rmult_1_l; split; apply Rinv_le_contravar; lra).
    assert (I2 : 0 < 25018803808 / 1000000000 / g <= 464 / 1000). { split; [apply Rdiv_lt_0_compat; lra|]. apply (Rmult_le_reg_r g); [lra|]. replace (25018803808 / 1000000000 / g * g) with (25018803808 / 1000000000) by (field; lra). lra. }
    lra.
  Qed.
  Lemma pairL_range : 7 / 10 <= pairL g <= 107 / 10.
  Proof.
    unfold pairL. pose proof arg0_range as A. pose proof root_g as Q. pose proof (poly_range _ ln_g) as P.
    assert (LA : - (457 / 100) <= ln (arg0 g) <= - (74 / 100)).
    { pose proof (ln_between 1000 475 744000 745000 ltac:(vm_compute; reflexivity)) as B1. pose proof (ln_between 96 1 4564000 4565000 ltac:(vm_compute; reflexivity)) as B2.
      assert (I1 : ln (475 / 1000) = - ln (1000 / 475)) by (rewrite <- ln_Rinv by lra; f_equal; field). assert (I2 : ln (1 / 96) = - ln (96 / 1)) by (rewrite <- ln_Rinv by lra; f_equal; field).
      pose proof (ln_le_mono (1 / 96) (arg0 g) ltac:(lra) ltac:(lra)). pose proof (ln_le_mono (arg0 g) (475 / 1000) ltac:(lra) ltac:(lra)). lra. }
    change (poly (ln g) / sqrt g) with (poly (ln g) * / sqrt g). set (i := / sqrt g) in *. set (l := ln (arg0 g)) in *. set (p := poly (ln g)) in *. clearbody i l p. assert (- (82 / 100) <= p * i <= 82 / 100) by (split; nra). lra.
  Qed.
End Range.
Lemma pairL_step g h : 54 <= g -> g <= h -> h <= 104 / 100 * g -> h <= 10800 -> - (15 / 100) <= pairL h - pairL g <= 15 / 100.
Proof.
  intros G GH HG H1. unfold pairL. pose proof (arg0_range g ltac:(lra)) as A. pose proof (arg0_range h ltac:(lra)) as B.
  assert (L1 : 0 <= ln (arg0 g) - ln (arg0 h) <= 4 / 100).
  { replace (4 / 100) with (104 / 100 - 1) by lra. apply (ln_ratio (104 / 100) (arg0 h) (arg0 g) ltac:(lra)); unfold arg0.
    - apply Rplus_le_compat_l. unfold Rdiv. apply Rmult_le_compat_l; [lra|]. apply Rinv_le_contravar; lra.
    - assert (0 < / screening) by (apply Rinv_0_lt_compat; pose proof screening_range; lra). assert (25018803808 / 1000000000 / g <= 104 / 100 * (25018803808 / 1000000000 / h)); [|lra].
      apply (Rmult_le_reg_r (g * h)); [nra|]. replace (25018803808 / 1000000000 / g * (g * h)) with (25018803808 / 1000000000 * h) by (field; lra). replace (104 / 100 * (25018803808 / 1000000000 / h) * (g * h)) with (104 / 100 * (25018803808 / 1000000000) * g) by (field; lra). lra. }
  pose proof (ln_ratio (104 / 100) g h ltac:(lra) GH HG) as LG. pose proof (ln_g g ltac:(lra)) as U. pose proof (ln_g h ltac:(lra)) as V.
  pose proof (poly_step (ln g) (ln h) ltac:(lra) ltac:(lra) ltac:(lra) ltac:(lra)) as PS. pose proof (poly_range _ U) as PU. pose proof (poly_range _ V) as PV.
  pose proof (root_g g ltac:(lra)) as R1. pose proof (root_g h ltac:(lra)) as R2.
  assert (R3 : 98 / 100 * / sqrt g <= / sqrt h <= / sqrt g).
  { assert (SG : 0 < sqrt g) by (apply sqrt_lt_R0; lra). assert (SH : sqrt g <= sqrt h) by (apply sqrt_le_1_alt; lra). split; [|apply Rinv_le_contravar; lra].
    assert (S2 : sqrt h <= 102 / 100 * sqrt g). { replace (102 / 100 * sqrt g) with (sqrt (102 / 100 * (102 / 100)) * sqrt g) by (rewrite sqrt_square by lra; ring). rewrite <- sqrt_mult by lra. apply sqrt_le_1_alt. lra. }
    apply (Rmult_le_reg_r (sqrt g * sqrt h)); [nra|]. replace (98 / 100 * / sqrt g * (sqrt g * sqrt h)) with (98 / 100 * sqrt h) by (field; lra). replace (/ sqrt h * (sqrt g * sqrt h)) with (sqrt g) by (field; lra). lra. }
  change (poly (ln g) / sqrt g) with (poly (ln g) * / sqrt g). change (poly (ln h) / sqrt h) with (poly (ln h) * / sqrt h). set (i := / sqrt g) in *. set (j := / sqrt h) in *. set (p := poly (ln g)) in *. set (q := poly (ln h)) in *. set (a := ln (arg0 g)) in *. set (b := ln (arg0 h)) in *. clearbody i j p q a b.
  replace (- (19 / 9) * b + q * j - (- (19 / 9) * a + p * i)) with (19 / 9 * (a - b) + (q - p) * j + p * (j - i)) by ring.
  assert (X1 : - (16 / 1000) <= (q - p) * j <= 0) by (split; nra). assert (X2 : - (17 / 1000) <= p * (j - i) <= 17 / 1000) by (split; nra). lra.
Qed.

(** ** The two losses *)
Lemma lorentz_gas T : 50000 <= T <= 10010000 -> 54 <= lorentz T <= 10800.
Proof. intros H. unfold lorentz, amu. decs. split; [assert (53 <= T / (9314940954 / 10000000)) by (apply (Rmult_le_reg_r (9314940954 / 10000000)); [lra|]; replace (T / (9314940954 / 10000000) * (9314940954 / 10000000)) with T by field; lra); lra|].
  assert (T / (9314940954 / 10000000) <= 10799) by (apply (Rmult_le_reg_r (9314940954 / 10000000)); [lra|]; replace (T / (9314940954 / 10000000) * (9314940954 / 10000000)) with T by field; lra). lra. Qed.
Lemma lorentz_step x z : 0 < x -> x <= z -> z <= 104 / 100 * x -> lorentz x <= lorentz z <= 104 / 100 * lorentz x.
Proof.
  intros X XZ ZX. unfold lorentz. pose proof amu_pos as U. assert (I : 0 < / amu) by (apply Rinv_0_lt_compat; exact U). unfold Rdiv. set (i := / amu) in *. clearbody i. split; nra.
Qed.
Definition pair (T : R) : R := pair_production (F:=R) (proton_at T) nitrogen.
Definition brems (T : R) : R := bremsstrahlung (F:=R) (proton_at T) nitrogen.
Definition pairK : R := dedx_constant / 4 * (alpha * 1 * 7) ^ 2 * (1 + 1 / 7) / 14.
Lemma pairK_range : 0 < pairK <= 2 / 100000.
Proof. unfold pairK, alpha, dedx_constant. numR. dec_norm. decs. lra. Qed.
Lemma pair_value T : 50000 <= T <= 10010000 -> pair T = pairK * lorentz T * pairL (lorentz T).
Proof.
  intros H. pose proof (lorentz_gas T H) as G. unfold pair. rewrite C59_pair_production by (cbn [proton_at nitrogen pT tA tZ]; lra || lia). cbv zeta. cbn [proton_at nitrogen pT pZ tA tZ].
  fold screening. fold pi2. set (g := lorentz T) in *. clearbody g.
  assert (A0 : ln (screening / (1 + 25.018803808 * screening / g)) = - ln (arg0 g)).
  { rewrite <- ln_Rinv by (pose proof (arg0_range g G); lra). f_equal. unfold arg0. pose proof screening_range. decs. field. repeat split; nra. }
  rewrite A0. rewrite ln_mult by lra. fold (poly (ln g)). replace (19 / 9 * - ln (arg0 g)) with (- (19 / 9) * ln (arg0 g)) by ring. fold (pairL g). fold pairK.
  apply Rmax_right. pose proof (pairL_range g G). pose proof pairK_range. apply Rmult_le_pos; [apply Rmult_le_pos; lra|lra].
Qed.
Lemma pair_near x z : 50000 <= x -> x <= z -> z <= 104 / 100 * x -> z <= 10010000 -> near (127 / 100) (pair x) (pair z).
Proof.
  intros X XZ ZX Z1. rewrite !pair_value by lra. pose proof (lorentz_gas x ltac:(lra)) as G. pose proof (lorentz_gas z ltac:(lra)) as H. destruct (lorentz_step x z ltac:(lra) XZ ZX) as [S1 S2].
  pose proof (pairL_range _ G) as P. pose proof (pairL_range _ H) as Q. pose proof (pairL_step _ _ (proj1 G) S1 S2 (proj2 H)) as D. pose proof pairK_range as K.
  apply (near_weaken (1 * (104 / 100) * (1 + 15 / 100 / (7 / 10)))); [lra|]. apply near_mult; [apply near_mult; [apply near_refl; lra|]|apply near_diff; lra].
  repeat split; lra.
Qed.
Lemma pair_small z : 50000 <= z <= 52000 -> 0 <= pair z <= 13 / 1000.
Proof.
  intros H. pose proof (C41_pair_production (proton_at z) nitrogen) as P0. fold (pair z) in P0. split; [exact P0|]. clear P0. rewrite pair_value by lra. pose proof (pairL_range (lorentz z) (lorentz_gas z ltac:(lra))) as P. pose proof pairK_range as K.
  assert (G : 0 < lorentz z <= 57). { unfold lorentz, amu. decs. assert (0 < z / (9314940954 / 10000000) <= 56); [|lra]. split; [apply Rdiv_lt_0_compat; lra|]. apply (Rmult_le_reg_r (9314940954 / 10000000)); [lra|]. replace (z / (9314940954 / 10000000) * (9314940954 / 10000000)) with z by field. lra. }
  set (g := lorentz z) in *. set (l := pairL g) in *. clearbody l g. assert (KG : 0 < pairK * g <= 114 / 100000) by (split; nra). set (k := pairK * g) in *. clearbody k. nra.
Qed.
Definition bremsK : R := 16 / 3 * (dedx_constant / (4 * PI_)) * alpha * (mec2 / (amu * 1)) * (1 ^ 4 * 7 ^ 2 / 14).
Definition bremsB : R := 2 * (hbar * c_light / 10) / (amu * 1 * (1.18 * (Rpower 1 (1 / 3) + Rpower 14 (1 / 3)))).
Lemma bremsK_range : 0 < bremsK <= 2 / 1000000.
Proof.
  assert (P : 0 < / PI_ (F:=R) <= 1 / 3) by (unfold PI_; numR; dec_norm; lra).
  unfold bremsK. replace (dedx_constant / (4 * PI_)) with (dedx_constant / 4 * / PI_ (F:=R)) by (field; intros E; rewrite E, Rinv_0 in P; lra). set (i := / PI_ (F:=R)) in *. clearbody i. unfold dedx_constant, alpha, mec2, amu. numR. dec_norm. decs. lra.
Qed.
Lemma bremsB_range : 0 < bremsB <= 1 / 2.
Proof.
  unfold bremsB. assert (R1 : Rpower 1 (1 / 3) = 1) by (unfold Rpower; rewrite ln_1, Rmult_0_r, exp_0; reflexivity). rewrite R1.
  assert (R2 : 1 <= Rpower 14 (1 / 3)) by (rewrite <- (Rpower_O 14) at 1 by lra; apply Rle_Rpower; lra). set (r := Rpower 14 (1 / 3)) in *. clearbody r.
  assert (HC : 0 < hbar (F:=R) * c_light / 10 <= 1980 / 10) by (unfold hbar, c_light; numR; dec_norm; lra). set (h := hbar * c_light / 10) in *. clearbody h.
  assert (D : 2190 <= amu * 1 * (1.18 * (1 + r))) by (unfold amu; decs; nra). set (d := amu * 1 * (1.18 * (1 + r))) in *. clearbody d.
  split; [apply Rdiv_lt_0_compat; lra|]. apply (Rmult_le_reg_r d); [lra|]. replace (2 * h / d * d) with (2 * h) by (field; lra). lra.
Qed.
Lemma brems_value T : 0 < T -> brems T = bremsK * lorentz T * ln (1 + bremsB * lorentz T).
Proof.
  intros H. unfold brems. rewrite C59_bremsstrahlung by (cbn [proton_at nitrogen pT pA tA tZ]; lra || lia). cbv zeta. cbn [proton_at nitrogen pT pA pZ tA tZ]. fold bremsK.
  f_equal. f_equal. f_equal. unfold bremsB, Rdiv. ring.
Qed.
Lemma brems_near x z : 0 < x -> x <= z -> z <= 104 / 100 * x -> near (109 / 100) (brems x) (brems z).
Proof.
  intros X XZ ZX. rewrite !brems_value by lra. destruct (lorentz_step x z ltac:(lra) XZ ZX) as [S1 S2]. pose proof (lorentz_gt x X) as G. set (g := lorentz x) in *. set (h := lorentz z) in *. clearbody g h.
  pose proof bremsK_range as K. pose proof bremsB_range as B. apply (near_weaken (1 * (104 / 100) * (104 / 100))); [lra|]. apply near_mult; [apply near_mult; [apply near_refl; lra|repeat split; lra]|].
  set (b := bremsB) in *. clearbody b. assert (P : 0 < ln (1 + b * g)) by (rewrite <- ln_1 at 1; apply ln_increasing; nra).
  assert (M : ln (1 + b * g) <= ln (1 + b * h)) by (apply ln_le_mono; nra).
  assert (C : ln (1 + b * h) <= 104 / 100 * ln (1 + b * g)).
  { eapply Rle_trans; [|apply (ln_concave (104 / 100) (b * g)); nra]. apply ln_le_mono; nra. }
  repeat split; lra.
Qed.
Lemma brems_small z : 0 < z <= 52000 -> 0 <= brems z <= 1 / 100.
Proof.
  intros H. pose proof (C41_bremsstrahlung (proton_at z) nitrogen ltac:(cbn [proton_at pA]; lra) ltac:(cbn [nitrogen tA]; lra) ltac:(cbn [proton_at pT]; lra)) as P0. fold (brems z) in P0. split; [exact P0|]. clear P0. rewrite brems_value by lra. pose proof (lorentz_gt z ltac:(lra)) as G1. pose proof bremsK_range as K. pose proof bremsB_range as B.
  assert (G : lorentz z <= 57). { unfold lorentz, amu. decs. assert (z / (9314940954 / 10000000) <= 56); [|lra]. apply (Rmult_le_reg_r (9314940954 / 10000000)); [lra|]. replace (z / (9314940954 / 10000000) * (9314940954 / 10000000)) with z by field. lra. }
  set (g := lorentz z) in *. set (b := bremsB) in *. set (k := bremsK) in *. clearbody g b k.
  pose proof (ln_upper (1 + b * g) ltac:(nra)) as L. assert (BG : 0 < b * g <= 285 / 10) by (split; nra). assert (L0 : 0 <= ln (1 + b * g)) by (rewrite <- ln_1; apply ln_le_mono; lra).
  set (l := ln (1 + b * g)) in *. clearbody l. assert (KG : 0 < k * g <= 114 / 1000000) by (split; nra). set (w := k * g) in *. clearbody w. nra.
Qed.

(** the end of the energy table *)
Lemma end_upper : exp (LN10_ (F:=R) * 7) <= 10010000.
Proof.
  pose proof (ln_between 10 1 2302585 2302586 ltac:(vm_compute; reflexivity)) as L. replace (10 / 1) with 10 in L by field.
  assert (LN : LN10_ (F:=R) <= ln 10 + 2 / 1000000) by (assert (LN10_ (F:=R) <= 2302586 / 1000000) by (unfold LN10_; numR; dec_norm; lra); lra).
  apply Rle_trans with (exp (7 * ln 10 + 14 / 1000000)); [apply exp_mono; lra|]. rewrite exp_plus. replace (7 * ln 10) with (INR 7 * ln 10) by (rewrite INR_IZR_INZ; simpl; ring). fold (Rpower 10 (INR 7)). rewrite Rpower_pow by lra.
  assert (E : exp (14 / 1000000) <= 1 + 1 / 1000).
  { replace (14 / 1000000) with (- - (14 / 1000000)) by ring. rewrite exp_Ropp. pose proof (exp_ineq1_le (- (14 / 1000000))) as Q. apply Rle_trans with (/ (1 + - (14 / 1000000))); [apply Rinv_le_contravar; lra|replace (/ (1 + - (14 / 1000000))) with (1000000 / 999986) by field; lra]. }
  pose proof (exp_pos (14 / 1000000)). nra.
Qed.
