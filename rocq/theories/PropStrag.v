(** * C50: the straggling variance *)
From Coq Require Import ZArith QArith Reals Qreals List Bool Lra Lia.
From Verif Require Import Num NumR Structures DataElements DataLSXa DataLSXahi EnergyTable Calculations Storage SpecData DataProofs GridProofs InterpProofs
  BoundsProofs TotalProofs StragTables EnergyOutProofs Cases PropTables PropGrid PropMaterial PropKin PropSrim PropZeff.
Import ListNotations.
Local Open Scope R_scope.

(** ** The factor used at an energy *)
Notation G200 := (gval 200 0 7).
Lemma grid_spacing i : (0 <= i <= 198)%Z -> 1 / 1000 < G200 (IZR (i + 1)) - G200 (IZR i).
Proof.
  intros I. pose proof (gval_ratio 200 0 7 (IZR i)) as G. rewrite plus_IZR. set (a := G200 (IZR i)) in *.
  assert (A1 : 1 <= a).
  { replace 1 with (G200 0) by (unfold gval; rewrite Rmult_0_l, Rplus_0_l, Rmult_0_r; apply exp_0). apply gval_le; [lia|lra|apply IZR_le; lia]. }
  assert (E1 : LN10_ * gstep 200 0 7 < exp (LN10_ * gstep 200 0 7) - 1).
  { pose proof LN10_pos. pose proof (gstep_pos 200 0 7 ltac:(lia) ltac:(lra)).
    pose proof (exp_ineq1 (LN10_ * gstep 200 0 7)). assert (0 < LN10_ * gstep 200 0 7) by nra. lra. }
  assert (S1 : 1 / 1000 < LN10_ * gstep 200 0 7).
  { unfold gstep. replace (INR 200) with 200 by (rewrite INR_IZR_INZ; reflexivity). pose proof LN10_bounds. lra. }
  assert (G200 (IZR i + 1) = a * exp (LN10_ * gstep 200 0 7)) by (rewrite <- G; field; lra). nra.
Qed.

(** one bracket serves every table looked up at the same energy *)
Lemma shared_bracket x : 1 <= x < ls_glast - numeric_epsilon -> exists i l, (0 <= i <= 198)%Z /\
  x = G200 (IZR i) + l * (G200 (IZR (i + 1)) - G200 (IZR i)) /\ - (1 / 1000) <= l < 1 /\ (G200 (IZR i) <= x \/ G200 (IZR i) - numeric_epsilon <= x < G200 (IZR i)) /\
  forall y yv, (forall j, (0 <= j < 200)%Z -> y j = Ok (yv j)) ->
    et_interpolate (ls_energy_table (F:=R)) x y = Ok ((1 - l) * yv i + l * yv (i + 1)%Z).
Proof.
  intros H. assert (GF : gfirst 200 0 7 = 1) by (rewrite gfirst_val, Rmult_0_r; apply exp_0).
  destruct (index_inside_cases 200 0 7 ltac:(lia) ltac:(lia) ltac:(lra) x) as (i & E & B & L); [rewrite GF; exact H|].
  replace (Z.of_nat 200 - 2)%Z with 198%Z in B by reflexivity. pose proof (grid_spacing i B) as SP. pose proof eps_small as ES. pose proof eps_pos as EP.
  set (g := G200 (IZR i)) in *. set (g1 := G200 (IZR (i + 1))) in *. exists i, ((x - g) / (g1 - g)). fold g g1.
  split; [exact B|]. split; [field; lra|]. split.
  { split.
    - apply Rmult_le_reg_r with (g1 - g); [lra|]. unfold Rdiv. rewrite Rmult_assoc, Rinv_l by lra. nra.
    - apply Rmult_lt_reg_r with (g1 - g); [lra|]. unfold Rdiv. rewrite Rmult_assoc, Rinv_l by lra. lra. }
  split; [destruct L; [left|right]; lra|]. intros y yv Y. rewrite ls_table_eq. rewrite (interp_start 200 0 7 ltac:(lia) y x). rewrite GF. unfold ls_glast in H.
  destruct (Rltb_spec x 1), (Rltb_spec (glast 200 0 7) x); cbn [orb]; try lra.
  destruct (Reqb_spec x (glast 200 0 7)); [lra|]. rewrite E. cbn [bind].
  rewrite et_aget by lia. cbn [bind]. rewrite et_aget by lia. cbn [bind]. fold g g1. dec_norm.
  destruct (Reqb_spec (g1 - g) (0 / 10)); [lra|]. cbv zeta. rewrite (Y i), (Y (i + 1)%Z) by lia. cbn [bind]. f_equal. field. lra.
Qed.

(** relative difference of the mass to that of the tabulated nucleus, in units of 5 per cent *)
Definition excess (p : Projectile R) : R :=
  let w := element_atomic_weight (Rfloor_Z (pZ p)) in (pA p - w) / w / (1 / 20).

Lemma row_of (tab : list (list dec)) z T : length tab = 108%nat -> Forall (fun r => length r = 200%nat) tab -> (0 <= z < 108)%Z ->
  ls_lookup (F:=R) tab z T = et_interpolate (ls_energy_table (F:=R)) T (fun i => omap lit (aget (nth (Z.to_nat z) tab []) i)) /\
  forall j, (0 <= j < 200)%Z -> omap lit (aget (nth (Z.to_nat z) tab []) j) = Ok (Rlit (nth (Z.to_nat j) (nth (Z.to_nat z) tab []) 0%dec)).
Proof.
  intros L F Z. split.
  - unfold ls_lookup. rewrite (nth_aget tab z []) by lia. reflexivity.
  - intros j J. assert (In (nth (Z.to_nat z) tab []) tab) as I by (apply nth_In; lia). rewrite Forall_forall in F. specialize (F _ I).
    rewrite (nth_aget _ j 0%dec) by (rewrite F; lia). reflexivity.
Qed.
Lemma X_unfold p : proj_Z_ok p -> 1 <= pT p ->
  precalculated_lindhard_X (F:=R) p =
  (v1 <- ls_lookup ls_X_coefficients_a (Rfloor_Z (pZ p) - 1) (pT p) ;; v2 <- ls_lookup ls_X_coefficients_ahi (Rfloor_Z (pZ p) - 1) (pT p) ;;
   Ok (v1 + excess p * (v2 - v1))).
Proof.
  intros Z T. destruct (proj_Z_int p Z) as [E B]. unfold precalculated_lindhard_X. rewrite E. cbn [cast bind]. cbv zeta.
  replace (Rfloor_Z (pZ p) >? LS_MAX_Z)%Z with false by (symmetry; rewrite Z.gtb_ltb; apply Z.ltb_ge; unfold LS_MAX_Z; lia).
  rewrite ls_e0. cbn [bind]. replace (fltb (pT p) 1) with false by (symmetry; apply Rltb_false; lra).
  destruct (ls_lookup _ _ _) as [v1|]; cbn [bind]; [|reflexivity]. destruct (ls_lookup _ _ _) as [v2|]; cbn [bind]; [|reflexivity].
  f_equal. unfold excess, a_rel_increase. cbv zeta. pose proof (weight_pos (Rfloor_Z (pZ p)) ltac:(lia)). numR. dec_norm. field. lra.
Qed.

(** the factor inside the table: between neighbouring grid points *)
Lemma X_inside p : proj_Z_ok p -> 1 <= pT p < ls_glast - numeric_epsilon -> exists i l, (0 <= i <= 198)%Z /\ - (1 / 1000) <= l < 1 /\
  pT p = G200 (IZR i) + l * (G200 (IZR (i + 1)) - G200 (IZR i)) /\ (G200 (IZR i) <= pT p \/ G200 (IZR i) - numeric_epsilon <= pT p < G200 (IZR i)) /\
  precalculated_lindhard_X (F:=R) p = Ok ((1 - l) * xr (excess p) (Z.to_nat (Rfloor_Z (pZ p) - 1)) (Z.to_nat i) + l * xr (excess p) (Z.to_nat (Rfloor_Z (pZ p) - 1)) (S (Z.to_nat i))).
Proof.
  intros Z T. destruct (proj_Z_int p Z) as [E B]. rewrite (X_unfold p Z) by lra.
  destruct (shared_bracket (pT p) T) as (i & l & I & D & L & C & Y). exists i, l. split; [exact I|]. split; [exact L|]. split; [exact D|]. split; [exact C|].
  destruct ls_Xa_sizes as [A1 A2], ls_Xahi_sizes as [H1 H2].
  destruct (row_of ls_X_coefficients_a (Rfloor_Z (pZ p) - 1) (pT p) A1 A2 ltac:(lia)) as [-> R1].
  destruct (row_of ls_X_coefficients_ahi (Rfloor_Z (pZ p) - 1) (pT p) H1 H2 ltac:(lia)) as [-> R2].
  rewrite (Y _ _ R1), (Y _ _ R2). cbn [bind]. f_equal. unfold xr, xa, xh. replace (Z.to_nat (i + 1)) with (S (Z.to_nat i)) by lia. ring.
Qed.

(** below the 161st energy the factor is positive for every mass up to 2.6 times the standard one *)
Lemma node161 : 400001 < G200 161.
Proof.
  unfold gval, gstep. replace (INR 200) with 200 by (rewrite INR_IZR_INZ; reflexivity). assert (L : 23 / 10 < LN10_ (F:=R)) by (unfold LN10_; numR; dec_norm; lra).
  apply Rlt_le_trans with (exp 13); [|left; apply exp_increasing; lra].
  assert (S : forall x, exp (2 * x) = exp x * exp x) by (intros x; rewrite <- exp_plus; f_equal; ring).
  assert (Q : forall a b x, 0 <= a -> a <= exp x -> b <= a * a -> b <= exp (2 * x)).
  { intros a b x A0 A B. rewrite S. pose proof (exp_pos x). nra. }
  assert (E0 : 1 + 13 / 1024 <= exp (13 / 1024)) by apply exp_ineq1_le.
  assert (E1 := Q (1 + 13 / 1024) (1025551 / 1000000) (13 / 1024) ltac:(lra) E0 ltac:(lra)).
  assert (E2 := Q (1025551 / 1000000) (1051754 / 1000000) (2 * (13 / 1024)) ltac:(lra) E1 ltac:(lra)).
  assert (E3 := Q (1051754 / 1000000) (1106186 / 1000000) (2 * (2 * (13 / 1024))) ltac:(lra) E2 ltac:(lra)).
  assert (E4 := Q (1106186 / 1000000) (1223647 / 1000000) (2 * (2 * (2 * (13 / 1024)))) ltac:(lra) E3 ltac:(lra)).
  assert (E5 := Q (1223647 / 1000000) (1497311 / 1000000) (2 * (2 * (2 * (2 * (13 / 1024))))) ltac:(lra) E4 ltac:(lra)).
  assert (E6 := Q (1497311 / 1000000) (2241940 / 1000000) (2 * (2 * (2 * (2 * (2 * (13 / 1024)))))) ltac:(lra) E5 ltac:(lra)).
  assert (E7 := Q (2241940 / 1000000) (5026294 / 1000000) (2 * (2 * (2 * (2 * (2 * (2 * (13 / 1024))))))) ltac:(lra) E6 ltac:(lra)).
  assert (E8 := Q (5026294 / 1000000) (25263631 / 1000000) (2 * (2 * (2 * (2 * (2 * (2 * (2 * (13 / 1024)))))))) ltac:(lra) E7 ltac:(lra)).
  assert (E9 := Q (25263631 / 1000000) (638251051 / 1000000) (2 * (2 * (2 * (2 * (2 * (2 * (2 * (2 * (13 / 1024))))))))) ltac:(lra) E8 ltac:(lra)).
  assert (E10 := Q (638251051 / 1000000) (407364404102 / 1000000) (2 * (2 * (2 * (2 * (2 * (2 * (2 * (2 * (2 * (13 / 1024)))))))))) ltac:(lra) E9 ltac:(lra)).
  replace (2 * (2 * (2 * (2 * (2 * (2 * (2 * (2 * (2 * (2 * (13 / 1024))))))))))) with 13 in E10 by lra. lra.
Qed.
Lemma glast_high : 400000 < ls_glast - numeric_epsilon.
Proof.
  unfold ls_glast. rewrite glast_IZR by lia. pose proof (grid_spacing 198 ltac:(lia)) as S. pose proof eps_small. pose proof node161.
  assert (G200 161 <= G200 198) by (apply gval_le; [lia|lra|lra]). change (198 + 1)%Z with 199%Z in S. change (Z.of_nat 200 - 1)%Z with 199%Z. lra.
Qed.

Theorem C50_factor p : 1 <= pZ p < 109 -> 0 <= pA p <= 26 / 10 * element_atomic_weight (Rfloor_Z (pZ p)) -> pT p <= 400000 ->
  exists X, precalculated_lindhard_X (F:=R) p = Ok X /\ 0 < X.
Proof.
  intros Z A T. destruct (Rlt_le_dec (pT p) 1) as [L1|L1].
  { exists 1. split; [now apply C25_lindhard_limits|lra]. }
  pose proof glast_high. pose proof node161 as N. destruct (X_inside p Z ltac:(lra)) as (i & l & I & L & D & C & E).
  eexists. split; [exact E|]. destruct (proj_Z_int p Z) as [_ B].
  pose proof (weight_pos (Rfloor_Z (pZ p)) ltac:(lia)) as W. set (w := element_atomic_weight (Rfloor_Z (pZ p))) in *.
  assert (T1 : -20 <= excess p <= 32).
  { unfold excess. fold w. cbv zeta. replace ((pA p - w) / w / (1 / 20)) with ((pA p / w - 1) * 20) by (field; lra).
    assert (0 <= pA p / w <= 26 / 10); [|lra]. split; [apply Rmult_le_pos; [lra|left; now apply Rinv_0_lt_compat]|].
    apply Rmult_le_reg_r with w; [exact W|]. unfold Rdiv at 1. rewrite Rmult_assoc, Rinv_l by lra. lra. }
  assert (I2 : (i < 161)%Z).
  { apply Z.nle_gt. intros Q. assert (G200 161 <= G200 (IZR i)) by (apply gval_le; [lia|lra|now apply IZR_le]).
    pose proof eps_small. destruct C; lra. }
  destruct (x_low (excess p) (Z.to_nat (Rfloor_Z (pZ p) - 1)) (Z.to_nat i) T1 ltac:(lia) ltac:(lia)) as [P1 P2].
  set (q := xr _ _ (Z.to_nat i)) in *. set (q1 := xr _ _ (S (Z.to_nat i))) in *. nra.
Qed.
Print Assumptions C50_factor.

(** at higher energies the tables contain zeros; the factor is still not negative for a mass between
    the two tabulated ones, away from the tolerance below each grid energy *)
Theorem C50_factor_high p : 1 <= pZ p < 109 ->
  (let w := element_atomic_weight (Rfloor_Z (pZ p)) in w <= pA p <= 105 / 100 * w) ->
  (forall i g, at_ (ls_energy_table (F:=R)) i = Some g -> ~ (g - numeric_epsilon <= pT p < g)) ->
  exists X, precalculated_lindhard_X (F:=R) p = Ok X /\ 0 <= X.
Proof.
  intros Z A G. cbv zeta in A. destruct (Rlt_le_dec (pT p) 1) as [L1|L1].
  { exists 1. split; [now apply C25_lindhard_limits|lra]. }
  destruct (Rlt_le_dec ls_glast (pT p)) as [L2|L2].
  { exists 0. split; [now apply C25_lindhard_limits|lra]. }
  assert (AT : forall i, (0 <= i < 200)%Z -> at_ (ls_energy_table (F:=R)) (Z.to_nat i) = Some (G200 (IZR i))).
  { intros i I. rewrite ls_table_eq, at_gval by lia. rewrite INR_IZR_INZ, Z2Nat.id by lia. reflexivity. }
  destruct (proj_Z_int p Z) as [_ B].
  pose proof (weight_pos (Rfloor_Z (pZ p)) ltac:(lia)) as W. set (w := element_atomic_weight (Rfloor_Z (pZ p))) in *.
  assert (T1 : 0 <= excess p <= 1).
  { unfold excess. fold w. cbv zeta. replace ((pA p - w) / w / (1 / 20)) with ((pA p / w - 1) * 20) by (field; lra).
    assert (1 <= pA p / w <= 105 / 100); [|lra].
    split; (apply Rmult_le_reg_r with w; [exact W|]); replace (pA p / w * w) with (pA p) by (field; lra); lra. }
  destruct (Req_dec (pT p) ls_glast) as [EQ|NE].
  - destruct ls_Xa_sizes as [A1 A2], ls_Xahi_sizes as [H1 H2]. rewrite (X_unfold p Z) by exact L1.
    destruct (row_of ls_X_coefficients_a (Rfloor_Z (pZ p) - 1) (pT p) A1 A2 ltac:(lia)) as [-> R1].
    destruct (row_of ls_X_coefficients_ahi (Rfloor_Z (pZ p) - 1) (pT p) H1 H2 ltac:(lia)) as [-> R2].
    rewrite ls_table_eq, EQ. unfold ls_glast. rewrite !interp_last by (lia || lra). change (Z.of_nat 200 - 1)%Z with 199%Z.
    rewrite R1, R2 by lia. cbn [bind]. eexists. split; [reflexivity|].
    exact (x_any (excess p) (Z.to_nat (Rfloor_Z (pZ p) - 1)) 199 T1 ltac:(lia) ltac:(lia)).
  - assert (LT : pT p < ls_glast - numeric_epsilon).
    { apply Rnot_le_lt. intros Q. apply (G 199%nat ls_glast); [|lra]. unfold ls_glast. rewrite glast_IZR by lia. exact (AT 199%Z ltac:(lia)). }
    destruct (X_inside p Z ltac:(lra)) as (i & l & I & L & D & C & E). eexists. split; [exact E|].
    destruct C as [C|C]; [|exfalso; exact (G _ _ (AT i ltac:(lia)) C)].
    pose proof (grid_spacing i I) as SP. assert (L0 : 0 <= l) by nra.
    pose proof (x_any (excess p) (Z.to_nat (Rfloor_Z (pZ p) - 1)) (Z.to_nat i) T1 ltac:(lia) ltac:(lia)) as P1.
    pose proof (x_any (excess p) (Z.to_nat (Rfloor_Z (pZ p) - 1)) (S (Z.to_nat i)) T1 ltac:(lia) ltac:(lia)) as P2. nra.
Qed.
Print Assumptions C50_factor_high.

(** ** The variance *)
(** the factor f and the correction term *)
Definition straggling_scale (p : Projectile R) (t : Target R) (c : Config R) : R :=
  domega2dx_constant * (z_effective p t c * z_effective p t c) * IZR (tZ t) / tA t.
Lemma variance_value p t c X : precalculated_lindhard_X (F:=R) p = Ok X ->
  exists cor, 0 <= cor /\ (tZ t = 1%Z -> 0 < pT p -> cor <= 2) /\
  dedx_variance (F:=R) p t c = Ok
    (let v := straggling_scale p t c * (X * (gamma_from_T (pT p) * gamma_from_T (pT p)) + cor) in
     if Rlt_dec (pT p) 30 then fmin v (energy_straggling_firsov (pZ p) (pT p) (IZR (tZ t)) (tA t)) else v).
Proof.
  intros E. unfold dedx_variance. cbv zeta. rewrite E. cbn [bind].
  match goal with |- context [if (c_calc c =? omega_atima)%Z then fmax ?a ?b else ?z] => set (cor := if (c_calc c =? omega_atima)%Z then fmax a b else z) end.
  exists cor. split; [|split].
  - unfold cor. destruct (c_calc c =? omega_atima)%Z; [|numR; dec_norm; lra]. rewrite fmaxR. numR. replace (Rlit 0.0) with 0 by (dec_norm; lra). apply Rmax_r.
  - intros TZ T. unfold cor. destruct (c_calc c =? omega_atima)%Z; [|numR; dec_norm; lra]. rewrite fmaxR. apply Rmax_lub; [|numR; dec_norm; lra].
    rewrite TZ. destruct C36_beta as (_ & BP & _). specialize (BP _ T). set (b := beta_from_T (pT p)) in *. clearbody b.
    assert (EM : 0 < electron_mass (F:=R)) by (unfold electron_mass; numR; dec_norm; lra). set (m := electron_mass (F:=R)) in *. clearbody m.
    numR. rewrite !Rpow_pos by lra. unfold Rpower. rewrite !ln_1, !Rmult_0_r, exp_0. dec_norm.
    set (y := 20 / 10 * m * 1000000 * (b * b) / (3305 / 100 * 1)).
    assert (Y : 0 < y) by (unfold y; apply pos_quot; [repeat apply Rmult_lt_0_compat; lra|lra]).
    assert (LN : ln y <= y) by (pose proof (exp_ineq1_le (ln y)) as H; rewrite exp_ln in H by exact Y; lra).
    apply Rle_trans with (2489 / 100 * 1 / (m * 1000000 * (b * b)) * y).
    + apply Rmult_le_compat_l; [|exact LN]. left. apply pos_quot; [lra|repeat apply Rmult_lt_0_compat; lra].
    + unfold y. replace (2489 / 100 * 1 / (m * 1000000 * (b * b)) * (20 / 10 * m * 1000000 * (b * b) / (3305 / 100 * 1))) with (2489 / 100 * (20 / 10) / (3305 / 100)) by (field; lra). lra.
  - f_equal. unfold straggling_scale. replace (ipow (z_effective p t c) 2) with (z_effective p t c * z_effective p t c) by (unfold ipow; cbn; numR; dec_norm; ring).
    numR. replace (Rlit 30.0) with 30 by (dec_norm; lra).
    destruct (Rltb_spec (pT p) 30), (Rlt_dec (pT p) 30); try contradiction; reflexivity.
Qed.

Lemma scale_nonneg p t c : 0 < tA t -> (1 <= tZ t)%Z -> 0 <= straggling_scale p t c /\ (z_effective (F:=R) p t c <> 0 -> 0 < straggling_scale p t c).
Proof.
  intros A Z. assert (K : 0 < domega2dx_constant (F:=R)).
  { unfold domega2dx_constant, dedx_constant, electron_mass. numR. dec_norm. apply Rmult_lt_0_compat; lra. }
  assert (1 <= IZR (tZ t)) by (apply IZR_le; exact Z). pose proof (Rinv_0_lt_compat _ A) as I. unfold straggling_scale. set (z := z_effective p t c).
  pose proof (Rle_0_sqr z) as S. unfold Rsqr in S. split.
  - apply Rmult_le_pos; [|lra]. apply Rmult_le_pos; [|lra]. apply Rmult_le_pos; lra.
  - intros NZ. assert (0 < z * z) by (pose proof (Rsqr_pos_lt z NZ); exact H0).
    apply pos_quot; [|exact A]. apply Rmult_lt_0_compat; [|lra]. apply Rmult_lt_0_compat; lra.
Qed.
Lemma firsov_sign z1 T z2 m2 : 0 < z1 -> 0 < z2 -> 0 < m2 -> 0 <= T ->
  0 <= energy_straggling_firsov (F:=R) z1 T z2 m2 /\ (0 < T -> 0 < energy_straggling_firsov (F:=R) z1 T z2 m2).
Proof.
  intros Z1 Z2 M T0. unfold energy_straggling_firsov. cbv zeta. rewrite gamma_R.
  assert (FS : 0 < fine_structure (F:=R)) by (unfold fine_structure; numR; dec_norm; lra).
  pose proof (beta2_range T T0) as [B _]. numR. set (a := fine_structure) in *. clearbody a.
  replace (Rlit 1.0) with 1 by (dec_norm; lra). rewrite Rpow_pos by lra.
  assert (BP : 0 < T -> 0 < 1 - 1 / ((1 + T / u0) * (1 + T / u0))).
  { intros TP. rewrite <- beta_sq by exact T0. destruct C36_beta as (_ & P & _). specialize (P T TP). nra. }
  set (b := 1 - 1 / ((1 + T / u0) * (1 + T / u0))) in *. clearbody b. set (e := Rpower (z1 + z2) (Rlit 8.0 / Rlit 3.0)).
  assert (E : 0 < e) by apply exp_pos. clearbody e. pose proof (Rinv_0_lt_compat _ FS) as IA. pose proof (Rinv_0_lt_compat _ M) as IM.
  assert (K : 0 < Rlit 4.8184E-3) by (dec_norm; lra). set (k := Rlit 4.8184E-3) in *. clearbody k.
  assert (P : 0 < k * e / m2) by (apply pos_quot; [apply Rmult_lt_0_compat; assumption|exact M]). split.
  - unfold Rdiv at 1 2. apply Rmult_le_pos; [|lra]. apply Rmult_le_pos; [|lra]. apply Rmult_le_pos; [lra|exact B].
  - intros TP. apply pos_quot; [|exact FS]. apply pos_quot; [|exact FS]. apply Rmult_lt_0_compat; [exact P|apply BP; exact TP].
Qed.

(** a light or heavy isotope of the projectile up to 2.6 times the standard mass *)
Definition isotope (p : Projectile R) : Prop :=
  1 <= pZ p < 109 /\ 0 <= pA p <= 26 / 10 * element_atomic_weight (Rfloor_Z (pZ p)).

Theorem C50_variance p t c : isotope p -> 0 <= pT p <= 400000 -> 0 < tA t -> (1 <= tZ t)%Z ->
  exists v, dedx_variance (F:=R) p t c = Ok v /\ 0 <= v /\ (0 < pT p -> z_effective p t c <> 0 -> 0 < v).
Proof.
  intros [Z A] T TA TZ. destruct (C50_factor p Z A (proj2 T)) as (X & EX & PX).
  destruct (variance_value p t c X EX) as (cor & C0 & _ & E). eexists. split; [exact E|]. cbv zeta.
  destruct (scale_nonneg p t c TA TZ) as [S1 S2]. assert (TZR : 1 <= IZR (tZ t)) by (apply IZR_le; exact TZ).
  destruct (firsov_sign (pZ p) (pT p) (IZR (tZ t)) (tA t) ltac:(lra) ltac:(lra) TA (proj1 T)) as [F1 F2].
  assert (G : 1 <= gamma_from_T (pT p)) by (apply C36_gamma; lra). set (g := gamma_from_T (pT p)) in *. clearbody g.
  assert (XG : 0 < X * (g * g)) by (apply Rmult_lt_0_compat; [exact PX|nra]).
  set (s := straggling_scale p t c) in *. set (y := X * (g * g) + cor) in *. assert (Y : 0 < y) by (unfold y; lra). clearbody y.
  assert (V0 : 0 <= s * y) by (apply Rmult_le_pos; lra).
  destruct (Rlt_dec (pT p) 30).
  - rewrite fminR. split; [apply Rmin_glb; assumption|]. intros TP NZ. apply Rmin_glb_lt; [|now apply F2]. apply Rmult_lt_0_compat; [now apply S2|exact Y].
  - split; [exact V0|]. intros TP NZ. apply Rmult_lt_0_compat; [now apply S2|exact Y].
Qed.
Print Assumptions C50_variance.

Theorem C50_material p m c : isotope p -> 0 <= pT p <= 400000 -> solid m -> exists v, domega2dx (F:=R) p m c = Ok v /\ 0 <= v.
Proof.
  intros IP T (_ & M & S). unfold domega2dx. assert (P : forall l b, (forall t, In t l -> 0 < tA t /\ (1 <= tZ t)%Z /\ 0 < tstn t) -> 0 <= b ->
    exists v, ofold (fun sum t => v <- dedx_variance p t c ;; Ok (fadd sum (fmul (wfrac m t) v))) l b = Ok v /\ 0 <= v).
  { induction l as [|t l IH]; intros b H B; [exists b; auto|]. cbn [ofold].
    destruct (H t (or_introl eq_refl)) as (A & Z & N). destruct (C50_variance p t c IP T A Z) as (v & E & V & _). rewrite E. cbn [bind].
    apply IH; [intros u U; apply H; now right|]. pose proof (wfrac_pos m t M A N). numR. assert (0 <= wfrac m t * v) by (apply Rmult_le_pos; lra). lra. }
  apply P; [now rewrite Forall_forall in S|]. numR. dec_norm. lra.
Qed.
Print Assumptions C50_material.

(** hence the tabulated straggling never decreases up to 10 MeV/u, where the stopping power is known
    to be positive *)
Theorem C50_table p m c st : isotope p -> 0 < pA p -> solid m -> (exists at_, angular_table p m c = Ok at_) -> straggling_table p m c = Ok st ->
  forall i, (S i < 600)%nat -> energy (S i) <= 10 -> nth i st 0 <= nth (S i) st 0.
Proof.
  intros IP A S [at_ HA] HS i I E10. apply (C28_variances p m c st at_ i HS HA (Rlt_le _ _ A) I).
  - intros x d X E. destruct (C42_dedx (at_T p x) m c) as (d' & E' & D').
    + cbn [at_T pT]. pose proof (energy_pos i ltac:(lia)). lra.
    + cbn [at_T pT]. lra.
    + unfold ion. cbn [at_T pA pZ]. destruct IP as [Z _]. lra.
    + exact S.
    + congruence.
  - intros x o X E. pose proof (energy_pos i ltac:(lia)).
    destruct (C50_material (at_T p x) m c IP ltac:(cbn [at_T pT]; lra) S) as (v & E' & V). congruence.
Qed.
Print Assumptions C50_table.

(** ** Above the first zeros of the tables the variance can be negative: helium 3 in hydrogen *)
Definition helium3 (T : R) : Projectile R := mkProj (3016 / 1000) 2 2 T.
Theorem C50_negative_refuted : exists T v, 400000 < T < ls_glast /\
  dedx_variance (F:=R) (helium3 T) (mkTarget 1 1 1) conf = Ok v /\ v < 0.
Proof.
  set (T := G200 183). exists T. assert (TB : 400001 < T < ls_glast - numeric_epsilon).
  { pose proof node161. pose proof (grid_spacing 198 ltac:(lia)) as S. pose proof eps_small. unfold T, ls_glast. rewrite glast_IZR by lia.
    assert (G200 161 < G200 183) by (apply gval_lt; [lia|lra|lra]). assert (G200 183 <= G200 198) by (apply gval_le; [lia|lra|lra]).
    change (198 + 1)%Z with 199%Z in S. change (Z.of_nat 200 - 1)%Z with 199%Z. lra. }
  assert (FL : Rfloor_Z 2 = 2%Z).
  { destruct (Rfloor_bound 2) as [B1 B2]. assert (Rfloor_Z 2 <= 2)%Z by (apply le_IZR; exact B1). assert (1 < Rfloor_Z 2)%Z by (apply lt_IZR; lra). lia. }
  assert (HX : precalculated_lindhard_X (F:=R) (helium3 T) = Ok (excess (helium3 T) * Rlit 0.0117346)).
  { destruct ls_Xa_sizes as [A1 A2], ls_Xahi_sizes as [H1 H2].
    rewrite (X_unfold (helium3 T)) by (unfold proj_Z_ok, helium3; cbn [pZ pT]; lra). cbn [helium3 pZ pT]. rewrite FL.
    assert (AT : at_ (ls_energy_table (F:=R)) 183 = Some T).
    { rewrite ls_table_eq, at_gval by lia. rewrite INR_IZR_INZ. reflexivity. }
    destruct (nth_error ls_X_coefficients_a 1) as [r1|] eqn:E1; [|exfalso; apply nth_error_None in E1; rewrite A1 in E1; lia].
    destruct (nth_error ls_X_coefficients_ahi 1) as [r2|] eqn:E2; [|exfalso; apply nth_error_None in E2; rewrite H1 in E2; lia].
    rewrite Forall_forall in A2, H2. pose proof (A2 _ (nth_error_In _ _ E1)) as L1. pose proof (H2 _ (nth_error_In _ _ E2)) as L2.
    assert (V1 : nth_error r1 183 = Some 0%dec).
    { assert (Q : (match nth_error ls_X_coefficients_a 1 with Some r => nth_error r 183 | None => None end) = Some 0%dec) by (vm_compute; reflexivity). rewrite E1 in Q. exact Q. }
    assert (V2 : nth_error r2 183 = Some 0.0117346%dec).
    { assert (Q : (match nth_error ls_X_coefficients_ahi 1 with Some r => nth_error r 183 | None => None end) = Some 0.0117346%dec) by (vm_compute; reflexivity). rewrite E2 in Q. exact Q. }
    rewrite (C25_lindhard_tables ls_X_coefficients_a (2 - 1) r1 183 T 0%dec), (C25_lindhard_tables ls_X_coefficients_ahi (2 - 1) r2 183 T 0.0117346%dec); try assumption.
    - cbn [bind]. f_equal. numR. replace (Rlit 0) with 0 by (dec_norm; lra). ring.
    - apply aget_ok. split; [lia|exact E2].
    - apply aget_ok. split; [lia|exact E1]. }
  destruct (variance_value (helium3 T) (mkTarget 1 1 1) conf _ HX) as (cor & C0 & C1 & E). cbn [tZ pT helium3] in C1. specialize (C1 eq_refl ltac:(lra)).
  cbn [pT helium3] in E. destruct (Rlt_dec T 30) as [B|_]; [lra|]. cbv zeta in E.
  eexists. split; [|split; [exact E|]].
  - pose proof eps_pos. lra.
  - assert (EX : excess (helium3 T) <= -4).
    { unfold excess. cbn [helium3 pZ pA]. rewrite FL. cbv zeta.
      replace (element_atomic_weight (F:=R) 2) with (40026 / 10000) by (change (element_atomic_weight (F:=R) 2) with (Rlit 4.0026); dec_norm; lra). lra. }
    assert (GG : 400 <= gamma_from_T T) by (rewrite gamma_R; unfold u0; lra).
    assert (SP : 0 < straggling_scale (helium3 T) (mkTarget 1 1 1) conf).
    { apply scale_nonneg; cbn [tA tZ]; [lra|lia|]. pose proof (C40_pierce_blann (3016 / 1000) 2 2 (mkTarget 1 1 1) conf eq_refl ltac:(lra)) as [P1 P2].
      pose proof (P1 0 ltac:(lra)). pose proof (P2 0 T ltac:(lra) ltac:(lra)). unfold helium3. lra. }
    set (s := straggling_scale _ _ _) in *. set (g := gamma_from_T T) in *. set (e := excess _) in *. clearbody s g e.
    assert (e * Rlit 0.0117346 <= - (1 / 25)) by (dec_norm; lra). set (x := e * Rlit 0.0117346) in *. clearbody x.
    assert (x * (g * g) + cor < 0) by nra. nra.
Qed.
Print Assumptions C50_negative_refuted.

(** ** Concrete cases: carbon ions in water; the first zero in the tables *)
Example C50_case : isotope (carbon 100) /\ (exists v, dedx_variance (F:=R) (carbon 100) (mkTarget 16 8 1) conf = Ok v /\ 0 < v) /\
  xa 0 188 <> 0%dec /\ xa 0 189 = 0%dec.
Proof.
  assert (I : isotope (carbon 100)).
  { unfold isotope, carbon. cbn [pZ pA]. assert (FL : Rfloor_Z 6 = 6%Z).
    { destruct (Rfloor_bound 6) as [B1 B2]. assert (Rfloor_Z 6 <= 6)%Z by (apply le_IZR; exact B1). assert (5 < Rfloor_Z 6)%Z by (apply lt_IZR; lra). lia. }
    rewrite FL. change (element_atomic_weight (F:=R) 6) with (Rlit 12.0107). dec_norm. lra. }
  split; [exact I|]. split; [|split; [vm_compute; discriminate|vm_compute; reflexivity]].
  destruct (C50_variance (carbon 100) (mkTarget 16 8 1) conf I) as (v & E & _ & V); [cbn; lra|cbn; lra|cbn; lia|]. exists v. split; [exact E|].
  apply V; [cbn; lra|]. pose proof (C40_pierce_blann 12 6 6 (mkTarget 16 8 1) conf eq_refl ltac:(lra)) as [P1 P2].
  pose proof (P1 0 ltac:(lra)). pose proof (P2 0 100 ltac:(lra) ltac:(lra)). unfold carbon. lra.
Qed.
