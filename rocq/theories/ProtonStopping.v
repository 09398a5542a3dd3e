(** * The stopping power of protons in nitrogen changes slowly with the energy

    Any density and thickness of the layer, any settings of the four corrections, of the calculation and of the scattering;
    the effective charge is that of Pierce and Blann, the default, or the charge itself; the low-energy table is the default
    one (SRIM 85). *)
From Coq Require Import ZArith QArith Reals Qreals List Bool Lra Lia.
From Verif Require Import Num NumR Structures DataSrim DataElements EnergyTable Srim Calculations Storage SpecData DataProofs GridProofs
  BoundsProofs TotalProofs EnergyOutProofs Cases PropTables PropMaterial PropKin PropDedx PropSrim PropZeff PropCorr PropStrag BetheProofs BetheBracket LnBounds PropLSTable Near.
Import ListNotations.
Local Open Scope R_scope.

Definition nitrogen : Target R := mkTarget 14 7 1.
Definition gas (rho th : R) : Material R := mkMat rho th 14 0 [nitrogen].
Definition proton : Projectile R := mkProj 1 1 1 0.
Definition proton_at (T : R) : Projectile R := mkProj 1 1 1 T.

(** ** Nuclear stopping *)
Definition snr (e : R) : R :=
  if Rle_dec e 30 then ln (1 + 11383 / 10000 * e) / (2 * (e + 1321 / 100000 * Rpower e (21226 / 100000) + 19593 / 100000 * Rpower e (1 / 2))) else ln e / (2 * e).

Lemma snr_near x z : 0 < x -> x <= z -> z <= 104 / 100 * x -> near (112 / 100) (snr x) (snr z).
Proof.
  intros X XZ ZX. unfold snr. pose proof (ln_between 30 1 3401000 3402000 ltac:(vm_compute; reflexivity)) as L30. replace (30 / 1) with 30 in L30 by field.
  destruct (Rle_dec x 30) as [X30|X30]; destruct (Rle_dec z 30) as [Z30|Z30]; try lra.
  - assert (LX : 0 < ln (1 + 11383 / 10000 * x)) by (rewrite <- ln_1 at 1; apply ln_increasing; lra).
    apply (near_weaken (104 / 100 * (104 / 100))); [lra|]. apply near_div.
    + pose proof (ln_concave (z / x) (11383 / 10000 * x)) as C. assert (QX : z / x * x = z) by (field; lra). set (q := z / x) in *. clearbody q.
      assert (1 <= q <= 104 / 100) by (split; nra). specialize (C ltac:(lra) ltac:(lra)). replace (1 + q * (11383 / 10000 * x)) with (1 + 11383 / 10000 * z) in C by (rewrite <- QX; ring).
      assert (M : ln (1 + 11383 / 10000 * x) <= ln (1 + 11383 / 10000 * z)) by (apply ln_le_mono; lra). repeat split; try lra; nra.
    + apply near_scale; [lra|]. apply near_plus; [apply near_plus|].
      * repeat split; lra.
      * apply near_scale; [lra|]. replace (104 / 100) with ((104 / 100) ^ 1) by ring. apply pow_near; try assumption. change (INR 1) with 1. lra.
      * apply near_scale; [lra|]. replace (104 / 100) with ((104 / 100) ^ 1) by ring. apply pow_near; try assumption. change (INR 1) with 1. lra.
  - (* the seam *)
    assert (XL : 288 / 10 < x) by lra. assert (LZ : 34 / 10 <= ln z) by (pose proof (ln_le_mono 30 z ltac:(lra) ltac:(lra)); lra).
    assert (A : 0 <= ln (1 + 11383 / 10000 * x) - ln z <= 18 / 100).
    { assert (H := ln_ratio (118 / 100) z (1 + 11383 / 10000 * x) ltac:(lra) ltac:(lra) ltac:(lra)). lra. }
    assert (P1 : 1 <= Rpower x (21226 / 100000) <= x).
    { split; [rewrite <- (Rpower_O x) by lra; apply Rle_Rpower; lra|]. rewrite <- (Rpower_1 x) at 2 by lra. apply Rle_Rpower; lra. }
    assert (P2 : 0 < Rpower x (1 / 2) <= x / 5).
    { split; [apply exp_pos|]. replace (Rpower x (1 / 2)) with (Rpower x (/ 2)) by (f_equal; lra). rewrite Rpower_sqrt by lra. apply Rsqr_incr_0_var; [|lra]. rewrite Rsqr_sqrt by lra. unfold Rsqr. nra. }
    set (p := Rpower x (21226 / 100000)) in *. set (s := Rpower x (1 / 2)) in *. clearbody p s. set (l := ln (1 + 11383 / 10000 * x)) in *. set (m := ln z) in *. clearbody l m.
    apply (near_weaken ((1 + 18 / 100 / (34 / 10)) * (106 / 100))); [lra|]. apply near_div; [apply near_diff; lra|]. repeat split; lra.
  - assert (LX : 34 / 10 <= ln x) by (pose proof (ln_le_mono 30 x ltac:(lra) ltac:(lra)); lra). pose proof (ln_ratio (104 / 100) x z X XZ ZX) as L.
    apply (near_weaken ((1 + 4 / 100 / (34 / 10)) * (104 / 100))); [lra|]. apply near_div; [apply near_diff; lra|]. repeat split; lra.
Qed.

Lemma wfrac_gas rho th : wfrac (gas rho th) nitrogen = 1.
Proof. unfold wfrac, gas, nitrogen. cbn [tstn tA m_M]. numR. destruct (Rltb_spec 1 (Rlit 1.0)) as [L|L]; [exfalso; revert L; dec_norm; lra|field]. Qed.
Definition nuc_w : R := Rpow_c 1 (Rlit 0.23) + Rpow_c 7 (Rlit 0.23).
Definition nuc_k : R := 100 * 84621 / 10000 * 7 * Avogadro / (15 * nuc_w * 14).
Definition nuc_m : R := 3253 / 100 * 14 * 1000 / (7 * 15 * nuc_w).
Lemma nuc_w_pos : 0 < nuc_w.
Proof. unfold nuc_w. pose proof (Rpow_pos_gt0 1 (Rlit 0.23) ltac:(lra)); pose proof (Rpow_pos_gt0 7 (Rlit 0.23) ltac:(lra)); lra. Qed.
Lemma nuclear_form rho th : 0 < nuc_k /\ 0 < nuc_m /\ forall T, 0 < T -> dedx_n (F:=R) (proton_at T) (gas rho th) = nuc_k * snr (nuc_m * T).
Proof.
  pose proof nuc_w_pos as ZP. unfold nuc_k, nuc_m. assert (AV : 0 < Avogadro (F:=R)) by (unfold Avogadro; numR; dec_norm; lra).
  assert (W1 : 0 < 7 * 15 * nuc_w) by lra. assert (W2 : 0 < 15 * nuc_w * 14) by lra. split; [apply Rdiv_lt_0_compat; nra|]. split; [apply Rdiv_lt_0_compat; lra|].
  intros T T0. unfold dedx_n. cbn [m_atoms gas fold_left]. fold (gas rho th). rewrite wfrac_gas. unfold dedx_n_t. cbn [proton_at nitrogen pZ pA pT tZ tA]. numR. fold nuc_w. set (w := nuc_w) in *. clearbody w.
  replace (Rlit 32.53 * 14 * Rlit 1000 * T * 1 / (1 * 7 * (1 + 14) * w)) with (3253 / 100 * 14 * 1000 / (7 * 15 * w) * T) by (dec_norm; field; lra).
  set (e := 3253 / 100 * 14 * 1000 / (7 * 15 * w) * T). assert (E : 0 < e) by (unfold e; apply Rmult_lt_0_compat; [apply Rdiv_lt_0_compat; lra|exact T0]). clearbody e.
  destruct (Rleb_spec e (Rlit 0)) as [C|C]; [exfalso; revert C; dec_norm; lra|]. clear C. unfold snr. rewrite !Rpow_pos by exact E.
  replace (Rlit 30) with 30 by (dec_norm; lra). replace (Rlit 0.21226) with (21226 / 100000) by (dec_norm; lra). replace (Rlit 0.5) with (1 / 2) by (dec_norm; lra).
  replace (Rlit 1.1383) with (11383 / 10000) by (dec_norm; lra). replace (Rlit 0.01321) with (1321 / 100000) by (dec_norm; lra). replace (Rlit 0.19593) with (19593 / 100000) by (dec_norm; lra). replace (Rlit 2) with 2 by (dec_norm; lra).
  destruct (Rleb_spec e 30), (Rle_dec e 30); try contradiction.
  - set (v := ln _ / _). dec_norm. field. lra.
  - set (v := ln _ / _). dec_norm. field. lra.
Qed.
Lemma nuclear_near rho th x z : 0 < x -> x <= z -> z <= 104 / 100 * x -> near (112 / 100) (dedx_n (F:=R) (proton_at x) (gas rho th)) (dedx_n (proton_at z) (gas rho th)).
Proof.
  intros X XZ ZX. destruct (nuclear_form rho th) as (K & M & V). rewrite !V by lra. apply near_scale; [exact K|]. set (m := nuc_m) in *. clearbody m. apply snr_near; nra.
Qed.

(** ** The fit of the low-energy stopping powers: row 7 of the 1985 table *)
Definition sl (e : R) : R := 59674 / 100000 * Rpower e (50837 / 10000000) + 42073 / 10000 * Rpower e (30612 / 100000).
Definition sh (e : R) : R := 23942 / 10 / Rpower e (10255 / 10000) * ln (48921 / 10 / e + 16006 / 1000000 * e).
Definition sfit (e : R) : R := sl e * sh e / (sl e + sh e).
Definition sez (T : R) : R := sfit (Rmax (1000 * T) 25) * Rpower (Rmin (1000 * T) 25 / 25) (45 / 100).

Lemma sez_value T : 0 < T -> p_se85 (F:=R) 7 T = Ok (sez T).
Proof.
  intros T0. unfold p_se85, p_se_with. cbv zeta. unfold tab2. assert (R7 : aget proton_stopping_coef (srim_row 7) = Ok [0.59674; 0.0050837; 4.2073; 0.30612; 2394.2; 1.0255; 4892.1; 0.0160060]%dec) by reflexivity.
  rewrite R7. clear R7. cbn [bind]. unfold aget. cbn [Z.ltb Z.compare Z.to_nat Z.gtb Pos.compare Pos.compare_cont].
  change (Pos.to_nat 1) with 1%nat. change (Pos.to_nat 2) with 2%nat. change (Pos.to_nat 3) with 3%nat. change (Pos.to_nat 4) with 4%nat. change (Pos.to_nat 5) with 5%nat. change (Pos.to_nat 6) with 6%nat. change (Pos.to_nat 7) with 7%nat.
  cbn [nth_error omap bind]. numR. cbn [omap bind].
  replace (Rlit 1000) with 1000 by (dec_norm; lra). replace (Rlit 25) with 25 by (dec_norm; lra). replace (Rlit 25.0) with 25 by (dec_norm; lra). replace (Rlit 0.45) with (45 / 100) by (dec_norm; lra).
  replace (Rlit 0.59674) with (59674 / 100000) by (dec_norm; lra). replace (Rlit 0.0050837) with (50837 / 10000000) by (dec_norm; lra). replace (Rlit 4.2073) with (42073 / 10000) by (dec_norm; lra). replace (Rlit 0.30612) with (30612 / 100000) by (dec_norm; lra).
  replace (Rlit 2394.2) with (23942 / 10) by (dec_norm; lra). replace (Rlit 1.0255) with (10255 / 10000) by (dec_norm; lra). replace (Rlit 4892.1) with (48921 / 10) by (dec_norm; lra). replace (Rlit 0.0160060) with (16006 / 1000000) by (dec_norm; lra).
  f_equal. unfold sez, sfit, sl, sh. destruct (Rleb_spec (1000 * T) 25) as [L|L].
  - rewrite (Rmax_right (1000 * T) 25), (Rmin_left (1000 * T) 25) by lra. rewrite !Rpow_pos by lra. reflexivity.
  - rewrite (Rmax_left (1000 * T) 25), (Rmin_right (1000 * T) 25) by lra. rewrite !Rpow_pos by lra. replace (25 / 25) with 1 by field.
    replace (Rpower 1 (45 / 100)) with 1 by (unfold Rpower; rewrite ln_1, Rmult_0_r, exp_0; reflexivity). rewrite Rmult_1_r. reflexivity.
Qed.

Lemma log_term e : 0 < e -> 28 / 10 <= ln (48921 / 10 / e + 16006 / 1000000 * e).
Proof.
  intros E. pose proof (ln_between 17 1 2800000 2900000 ltac:(vm_compute; reflexivity)) as L. replace (17 / 1) with 17 in L by field.
  apply Rle_trans with (ln 17); [lra|]. apply ln_le_mono; [lra|]. apply (Rmult_le_reg_r e); [exact E|]. replace ((48921 / 10 / e + 16006 / 1000000 * e) * e) with (48921 / 10 + 16006 / 1000000 * (e * e)) by (field; lra).
  pose proof (Rle_0_sqr (e - 540)) as SQ. unfold Rsqr in SQ. nra.
Qed.
Lemma sl_pos e : 0 < sl e.
Proof. unfold sl. pose proof (exp_pos (50837 / 10000000 * ln e)) as A. pose proof (exp_pos (30612 / 100000 * ln e)) as B. fold (Rpower e (50837 / 10000000)) in A. fold (Rpower e (30612 / 100000)) in B. lra. Qed.
Lemma sfit_near x z : 0 < x -> x <= z -> z <= 104 / 100 * x -> near (11 / 10) (sfit x) (sfit z).
Proof.
  intros X XZ ZX. unfold sfit. apply near_harmonic.
  - apply (near_weaken ((104 / 100) ^ 1)); [lra|]. apply near_plus; apply near_scale; try lra; apply pow_near; try assumption; change (INR 1) with 1; lra.
  - unfold sh. apply (near_weaken ((104 / 100) ^ 2 * (1 + 4 / 100 / (28 / 10)))); [lra|]. apply near_mult.
    + apply near_scale; [lra|]. apply near_inv. apply pow_near; try assumption. change (INR 2) with (1 + 1). lra.
    + pose proof (log_term x X) as LX. pose proof (log_term z ltac:(lra)) as LZ. apply near_diff; try lra.
      assert (I : 48921 / 10 / z <= 48921 / 10 / x) by (unfold Rdiv; apply Rmult_le_compat_l; [lra|]; apply Rinv_le_contravar; lra).
      assert (J : 48921 / 10 / x <= 104 / 100 * (48921 / 10 / z)).
      { apply (Rmult_le_reg_r (x * z)); [nra|]. replace (48921 / 10 / x * (x * z)) with (48921 / 10 * z) by (field; lra). replace (104 / 100 * (48921 / 10 / z) * (x * z)) with (104 / 100 * (48921 / 10) * x) by (field; lra). lra. }
      assert (I0 : 0 < 48921 / 10 / z) by (apply Rdiv_lt_0_compat; lra).
      set (u := 48921 / 10 / x) in *. set (v := 48921 / 10 / z) in *. clearbody u v.
      assert (U : 0 < u + 16006 / 1000000 * x) by lra. assert (V : 0 < v + 16006 / 1000000 * z) by lra.
      set (a := u + 16006 / 1000000 * x) in *. set (b := v + 16006 / 1000000 * z) in *. assert (AB : b <= 104 / 100 * a) by (unfold a, b; lra). assert (BA : a <= 104 / 100 * b) by (unfold a, b; lra). clearbody a b.
      pose proof (ln_le_mono _ _ V AB) as H1. pose proof (ln_le_mono _ _ U BA) as H2. rewrite ln_mult in H1, H2 by lra. pose proof (ln_upper (104 / 100) ltac:(lra)). lra.
Qed.
Lemma sez_near x z : 0 < x -> x <= z -> z <= 104 / 100 * x -> near (1145 / 1000) (sez x) (sez z).
Proof.
  intros X XZ ZX. unfold sez. apply (near_weaken (11 / 10 * (104 / 100) ^ 1)); [lra|]. apply near_mult.
  - apply sfit_near.
    + pose proof (Rmax_r (1000 * x) 25). lra.
    + apply Rle_max_compat_r. lra.
    + unfold Rmax. destruct (Rle_dec (1000 * z) 25), (Rle_dec (1000 * x) 25); lra.
  - apply pow_near.
    + apply Rdiv_lt_0_compat; [|lra]. unfold Rmin. destruct (Rle_dec (1000 * x) 25); lra.
    + unfold Rmin. destruct (Rle_dec (1000 * x) 25), (Rle_dec (1000 * z) 25); lra.
    + unfold Rmin. destruct (Rle_dec (1000 * x) 25), (Rle_dec (1000 * z) 25); lra.
    + change (INR 1) with 1. lra.
Qed.
(** between 10 and 30 MeV the fit is close to its high-energy part *)
Lemma sez_size T : 10 <= T <= 30 -> 83 / 10 <= T * sez T <= 15.
Proof.
  intros H. unfold sez. rewrite Rmax_left, Rmin_right by lra. replace (25 / 25) with 1 by field. replace (Rpower 1 (45 / 100)) with 1 by (unfold Rpower; rewrite ln_1, Rmult_0_r, exp_0; reflexivity). rewrite Rmult_1_r.
  set (e := 1000 * T). assert (E : 10000 <= e <= 30000) by (unfold e; lra). replace T with (e / 1000) by (unfold e; field). clearbody e. clear H T.
  assert (L1 : 507 / 100 <= ln (48921 / 10 / e + 16006 / 1000000 * e) <= 62 / 10).
  { assert (D : 0 < 48921 / 10 / e <= 5 / 10).
    { split; [apply Rdiv_lt_0_compat; lra|]. apply (Rmult_le_reg_r e); [lra|]. replace (48921 / 10 / e * e) with (48921 / 10) by (field; lra). lra. }
    pose proof (ln_between 16006 100 5070000 5080000 ltac:(vm_compute; reflexivity)) as A. pose proof (ln_between 482 1 6170000 6200000 ltac:(vm_compute; reflexivity)) as B. replace (482 / 1) with 482 in B by field.
    set (d := 48921 / 10 / e) in *. clearbody d.
    pose proof (ln_le_mono (16006 / 100) (d + 16006 / 1000000 * e) ltac:(lra) ltac:(lra)). pose proof (ln_le_mono (d + 16006 / 1000000 * e) 482 ltac:(lra) ltac:(lra)). lra. }
  assert (P : e <= Rpower e (10255 / 10000) <= 139 / 100 * e).
  { replace (10255 / 10000) with (1 + 255 / 10000) by lra. rewrite Rpower_plus, Rpower_1 by lra.
    assert (Q : 1 <= Rpower e (255 / 10000) <= 139 / 100); [|split; nra]. split; [rewrite <- (Rpower_O e) by lra; apply Rle_Rpower; lra|].
    apply Rle_trans with (Rpower (2 ^ 15) (255 / 10000)); [apply Rle_Rpower_l; lra|]. rewrite <- Rpower_pow by lra. rewrite Rpower_mult. replace (INR 15) with 15 by (rewrite INR_IZR_INZ; reflexivity).
    pose proof (bernoulli (15 * (255 / 10000)) 2 ltac:(lra) ltac:(lra)) as BB. unfold Rpower. lra. }
  assert (SL : 42 <= sl e).
  { unfold sl. pose proof (exp_pos (50837 / 10000000 * ln e)) as A. fold (Rpower e (50837 / 10000000)) in A.
    assert (B : 10 <= Rpower e (30612 / 100000)); [|lra]. apply Rle_trans with (Rpower 10000 (30612 / 100000)); [|apply Rle_Rpower_l; lra]. replace 10000 with (10 ^ 4) by ring. rewrite <- Rpower_pow by lra. rewrite Rpower_mult.
    replace (INR 4) with 4 by (rewrite INR_IZR_INZ; reflexivity). rewrite <- (Rpower_1 10) at 1 by lra. apply Rle_Rpower; lra. }
  assert (SH : 8732 <= e * sh e <= 14845).
  { unfold sh. set (l := ln _) in *. set (p := Rpower e _) in *. clearbody l p. replace (e * (23942 / 10 / p * l)) with (23942 / 10 * l * (e / p)) by (field; lra).
    assert (Q : 100 / 139 <= e / p <= 1).
    { split; apply (Rmult_le_reg_r p); try lra; replace (e / p * p) with e by (field; lra); lra. }
    set (r := e / p) in *. clearbody r. split; nra. }
  unfold sfit. set (a := sl e) in *. set (b := sh e) in *. clearbody a b. assert (B : 0 < b <= 15 / 10) by (split; nra).
  assert (F : 96 / 100 * b <= a * b / (a + b) <= b).
  { split; apply (Rmult_le_reg_r (a + b)); try lra; replace (a * b / (a + b) * (a + b)) with (a * b) by (field; lra); nra. }
  set (f := a * b / (a + b)) in *. clearbody f. split; nra.
Qed.
Lemma low_value rho th c T : (c_low c =? srim_95)%Z = false -> 0 < T -> sezi_dedx_e (F:=R) (proton_at T) (gas rho th) c = Ok (100 * (sez T / 14) * Avogadro).
Proof.
  intros HL T0. unfold sezi_dedx_e. cbn [m_atoms gas ofold]. fold (gas rho th). rewrite HL. cbv iota zeta. cbn [proton_at pZ pT nitrogen tZ tA].
  assert (C : fto_int (F:=R) 1 = Some 1%Z).
  { destruct (proj_Z_int proton) as [C _]; [unfold proj_Z_ok; cbn; lra|]. cbn [pZ proton] in C. rewrite C. f_equal. destruct (Rfloor_bound 1) as [B1 B2]. assert (0 < Rfloor_Z 1)%Z by (apply lt_IZR; lra). apply le_IZR in B1. lia. }
  rewrite C. cbn [cast bind]. unfold srim_dedx_e. cbn [Z.eqb Pos.eqb]. cbv iota zeta. rewrite sez_value by exact T0. cbn [bind]. rewrite wfrac_gas. numR. replace (Rlit 100) with 100 by (dec_norm; lra). replace (Rlit 0.0) with 0 by (dec_norm; lra). f_equal. field.
Qed.
