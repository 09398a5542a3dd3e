(** * The energy straggling of protons in nitrogen changes slowly with the energy, I: the stopping power, with sharper bounds *)
From Coq Require Import ZArith QArith Reals Qreals List Bool Lra Lia.
From Verif Require Import Num NumR Structures DataSrim DataElements EnergyTable Srim Calculations Storage SpecData DataProofs GridProofs
  BoundsProofs TotalProofs EnergyOutProofs Cases PropTables PropMaterial PropKin PropDedx PropSrim PropZeff PropCorr PropStrag BetheProofs BetheBracket LnBounds PropLSTable Near ProtonStopping ProtonLindhard ProtonHigh ProtonBethe
  PropMonoApi PropMonoProton.
Import ListNotations.
Local Open Scope R_scope.

(** both positive, b at most u times a and a at most d times b *)
Definition within (u d a b : R) : Prop := 0 < a /\ 0 < b /\ b <= u * a /\ a <= d * b.
Lemma within_mult u d v e a b a' b' : within u d a b -> within v e a' b' -> within (u * v) (d * e) (a * a') (b * b').
Proof.
  intros (A & B & AB & BA) (C & D & CD & DC). split; [now apply Rmult_lt_0_compat|]. split; [now apply Rmult_lt_0_compat|]. split.
  - replace (u * v * (a * a')) with ((u * a) * (v * a')) by ring. apply Rmult_le_compat; lra.
  - replace (d * e * (b * b')) with ((d * b) * (e * b')) by ring. apply Rmult_le_compat; lra.
Qed.
Lemma within_inv u d a b : within u d a b -> within d u (/ a) (/ b).
Proof.
  intros (A & B & AB & BA). split; [now apply Rinv_0_lt_compat|]. split; [now apply Rinv_0_lt_compat|]. split; apply (Rmult_le_reg_l (a * b)); try (apply Rmult_lt_0_compat; assumption).
  - replace (a * b * / b) with a by (field; lra). replace (a * b * (d * / a)) with (d * b) by (field; lra). exact BA.
  - replace (a * b * / a) with b by (field; lra). replace (a * b * (u * / b)) with (u * a) by (field; lra). exact AB.
Qed.
Lemma within_div u d v e a b a' b' : within u d a b -> within v e a' b' -> within (u * e) (d * v) (a / a') (b / b').
Proof. intros H1 H2. apply within_mult; [exact H1|apply within_inv, H2]. Qed.
Lemma within_plus u d a b a' b' : within u d a b -> within u d a' b' -> within u d (a + a') (b + b').
Proof. intros (A & B & AB & BA) (C & D & CD & DC). repeat split; lra. Qed.
Lemma within_weaken u d v e a b : u <= v -> d <= e -> within u d a b -> within v e a b.
Proof. intros L M (A & B & AB & BA). repeat split; nra. Qed.
Lemma within_scale u d m a b : 0 < m -> within u d a b -> within u d (m * a) (m * b).
Proof. intros M (A & B & AB & BA). repeat split; nra. Qed.
Lemma within_near k a b : near k a b -> within k k a b.
Proof. intros H. exact H. Qed.
Lemma near_within u d k a b : u <= k -> d <= k -> within u d a b -> near k a b.
Proof. intros U D (A & B & AB & BA). repeat split; nra. Qed.
Lemma within_cube u d a b : within u d a b -> within (u * u * u) (d * d * d) (a ^ 3) (b ^ 3).
Proof. intros H. replace (a ^ 3) with (a * a * a) by ring. replace (b ^ 3) with (b * b * b) by ring. apply within_mult; [apply within_mult|]; exact H. Qed.
Lemma within_min u d a b a' b' : within u d a b -> within u d a' b' -> within u d (Rmin a a') (Rmin b b').
Proof.
  intros (A & B & AB & BA) (C & D & CD & DC). split; [now apply Rmin_pos|]. split; [now apply Rmin_pos|]. split; unfold Rmin; destruct (Rle_dec a a'), (Rle_dec b b'); nra.
Qed.
Lemma pow_near_concave q x z y : 0 < x -> x <= z -> z <= q * x -> 0 <= y <= 1 -> within (1 + y * (q - 1)) 1 (Rpower x y) (Rpower z y).
Proof.
  intros X XZ ZQ Y. assert (Q : 1 <= q) by nra. pose proof (exp_pos (y * ln x)) as E1. pose proof (exp_pos (y * ln z)) as E2. fold (Rpower x y) in E1. fold (Rpower z y) in E2.
  assert (L1 : Rpower x y <= Rpower z y) by (apply Rle_Rpower_l; lra).
  assert (L2 : Rpower z y <= (1 + y * (q - 1)) * Rpower x y).
  { apply Rle_trans with (Rpower (q * x) y); [apply Rle_Rpower_l; lra|]. rewrite <- Rpower_mult_distr by lra. apply Rmult_le_compat_r; [lra|]. exact (bernoulli y q Y ltac:(lra)). }
  repeat split; lra.
Qed.

(** ** Nuclear stopping *)
Lemma snr_close x z : 0 < x -> x <= z -> z <= 104 / 100 * x -> near (1061 / 1000) (snr x) (snr z).
Proof.
  intros X XZ ZX. unfold snr. pose proof (ln_between 30 1 3401000 3402000 ltac:(vm_compute; reflexivity)) as L30. replace (30 / 1) with 30 in L30 by field.
  destruct (Rle_dec x 30) as [X30|X30]; destruct (Rle_dec z 30) as [Z30|Z30]; try lra.
  - assert (LX : 0 < ln (1 + 11383 / 10000 * x)) by (rewrite <- ln_1 at 1; apply ln_increasing; lra).
    apply (near_within (104 / 100 * 1) (1 * (104 / 100))); [lra|lra|]. apply within_div.
    + pose proof (ln_concave (z / x) (11383 / 10000 * x)) as C. assert (QX : z / x * x = z) by (field; lra). set (q := z / x) in *. clearbody q.
      assert (1 <= q <= 104 / 100) by (split; nra). specialize (C ltac:(lra) ltac:(lra)). replace (1 + q * (11383 / 10000 * x)) with (1 + 11383 / 10000 * z) in C by (rewrite <- QX; ring).
      assert (M : ln (1 + 11383 / 10000 * x) <= ln (1 + 11383 / 10000 * z)) by (apply ln_le_mono; lra). repeat split; try lra; nra.
    + apply within_scale; [lra|]. apply within_plus; [apply within_plus|].
      * repeat split; lra.
      * apply within_scale; [lra|]. apply (within_weaken (1 + 21226 / 100000 * (104 / 100 - 1)) 1); [lra|lra|]. apply pow_near_concave; lra.
      * apply within_scale; [lra|]. apply (within_weaken (1 + 1 / 2 * (104 / 100 - 1)) 1); [lra|lra|]. apply pow_near_concave; lra.
  - (* the seam *)
    assert (XL : 288 / 10 < x) by lra. assert (LZ : 34 / 10 <= ln z) by (pose proof (ln_le_mono 30 z ltac:(lra) ltac:(lra)); lra).
    assert (A : 0 <= ln (1 + 11383 / 10000 * x) - ln z <= 18 / 100).
    { assert (H := ln_ratio (118 / 100) z (1 + 11383 / 10000 * x) ltac:(lra) ltac:(lra) ltac:(lra)). lra. }
    assert (P1 : 1 <= Rpower x (21226 / 100000) <= x).
    { split; [rewrite <- (Rpower_O x) by lra; apply Rle_Rpower; lra|]. rewrite <- (Rpower_1 x) at 2 by lra. apply Rle_Rpower; lra. }
    assert (P2 : 5 <= Rpower x (1 / 2) <= x / 5).
    { replace (Rpower x (1 / 2)) with (Rpower x (/ 2)) by (f_equal; lra). rewrite Rpower_sqrt by lra. split; apply Rsqr_incr_0_var; try lra; try apply sqrt_pos; rewrite Rsqr_sqrt by lra; unfold Rsqr; nra. }
    set (p := Rpower x (21226 / 100000)) in *. set (s := Rpower x (1 / 2)) in *. clearbody p s. set (l := ln (1 + 11383 / 10000 * x)) in *. set (m := ln z) in *. clearbody l m.
    apply (near_within (1 * (1055 / 1000)) (1053 / 1000 * (1007 / 1000))); [lra|lra|]. apply within_div; repeat split; lra.
  - assert (LX : 34 / 10 <= ln x) by (pose proof (ln_le_mono 30 x ltac:(lra) ltac:(lra)); lra). pose proof (ln_ratio (104 / 100) x z X XZ ZX) as L.
    apply (near_within (1012 / 1000 * 1) (1 * (104 / 100))); [lra|lra|]. apply within_div; repeat split; lra.
Qed.
Lemma nuclear_close rho th x z : 0 < x -> x <= z -> z <= 104 / 100 * x -> near (1061 / 1000) (dedx_n (F:=R) (proton_at x) (gas rho th)) (dedx_n (proton_at z) (gas rho th)).
Proof.
  intros X XZ ZX. destruct (nuclear_form rho th) as (K & M & V). rewrite !V by lra. apply near_scale; [exact K|]. set (m := nuc_m) in *. clearbody m. apply snr_close; nra.
Qed.
(** it is small at high energies *)
Lemma nuclear_small rho th T : 10 <= T <= 50000 -> 0 < T * dedx_n (F:=R) (proton_at T) (gas rho th) <= 364 / 1000.
Proof.
  intros H. destruct (nuclear_form rho th) as (K & M & V). rewrite V by lra. clear V.
  assert (W : 2 <= nuc_w <= 3).
  { unfold nuc_w. rewrite !Rpow_pos by lra. replace (Rlit 0.23) with (23 / 100) by (dec_norm; lra). replace (Rpower 1 (23 / 100)) with 1 by (unfold Rpower; rewrite ln_1, Rmult_0_r, exp_0; reflexivity).
    assert (1 <= Rpower 7 (23 / 100)) by (rewrite <- (Rpower_O 7) at 1 by lra; apply Rle_Rpower; lra). assert (Rpower 7 (23 / 100) <= 2); [|lra].
    apply Rle_trans with (Rpower 7 (1 / 3)); [apply Rle_Rpower; lra|]. apply Rle_trans with (Rpower (2 ^ 3) (1 / 3)); [apply Rle_Rpower_l; lra|]. rewrite <- Rpower_pow by lra. rewrite Rpower_mult.
    replace (INR 3 * (1 / 3)) with 1 by (rewrite INR_IZR_INZ; simpl; field). rewrite Rpower_1 by lra. lra. }
  assert (MV : nuc_m = 13012 / 3 / nuc_w) by (unfold nuc_m; field; lra). assert (KV : nuc_k = 2 * (19595 / 1000000) * nuc_m * (nuc_k / (2 * (19595 / 1000000) * nuc_m))) by (field; lra).
  assert (Q : 0 < nuc_k / (2 * (19595 / 1000000) * nuc_m) <= 1).
  { split; [apply Rdiv_lt_0_compat; lra|]. unfold nuc_k. rewrite Avogadro_val, MV. set (w := nuc_w) in *. clearbody w. match goal with |- ?t <= 1 => replace t with (100 * 84621 / 10000 * 7 * (6022140857 / 1000000000) / 210 / (2 * (19595 / 1000000) * (13012 / 3))) by (field; lra) end. lra. }
  set (q := nuc_k / (2 * (19595 / 1000000) * nuc_m)) in *. clearbody q. rewrite KV. clear KV. set (m := nuc_m) in *.
  assert (M1 : 1445 <= m <= 2169) by (rewrite MV; split; apply (Rmult_le_reg_r nuc_w); try lra; replace (13012 / 3 / nuc_w * nuc_w) with (13012 / 3) by (field; lra); lra). clearbody m. clear MV W K.
  assert (E : 14450 <= m * T <= 108450000) by nra. unfold snr. destruct (Rle_dec (m * T) 30); [lra|].
  assert (L : 0 < ln (m * T) <= 185020 / 10000).
  { split; [rewrite <- ln_1; apply ln_increasing; lra|]. pose proof (ln_between 108450000 1 18500000 18502000 ltac:(vm_compute; reflexivity)) as LB. replace (108450000 / 1) with 108450000 in LB by field. pose proof (ln_le_mono (m * T) 108450000 ltac:(lra) ltac:(lra)). lra. }
  set (l := ln (m * T)) in *. clearbody l. replace (T * (2 * (19595 / 1000000) * m * q * (l / (2 * (m * T))))) with (19595 / 1000000 * (q * l)) by (field; lra).
  assert (0 < q * l <= 1 * (185020 / 10000)) by (split; [apply Rmult_lt_0_compat; lra|apply Rmult_le_compat; lra]). lra.
Qed.

(** ** The low-energy fit *)
Lemma sfit_close x z : 0 < x -> x <= z -> z <= 104 / 100 * x -> near (1056 / 1000) (sfit x) (sfit z).
Proof.
  intros X XZ ZX. unfold sfit. apply near_harmonic.
  - apply (near_weaken ((104 / 100) ^ 1)); [lra|]. apply near_plus; apply near_scale; try lra; apply pow_near; try assumption; change (INR 1) with 1; lra.
  - unfold sh. apply (near_weaken (104 / 100 * (1 + 255 / 10000 * (104 / 100 - 1)) * (1 + 4 / 100 / (28 / 10)))); [lra|]. apply near_mult.
    + apply near_scale; [lra|]. apply near_inv. replace (10255 / 10000) with (1 + 255 / 10000) by lra. rewrite !Rpower_plus, !Rpower_1 by lra. apply near_mult; [repeat split; lra|].
      apply (near_within (1 + 255 / 10000 * (104 / 100 - 1)) 1); [lra|lra|]. apply pow_near_concave; lra.
    + pose proof (log_term x X) as LX. pose proof (log_term z ltac:(lra)) as LZ. apply near_diff; try lra.
      assert (I : 48921 / 10 / z <= 48921 / 10 / x) by (unfold Rdiv; apply Rmult_le_compat_l; [lra|]; apply Rinv_le_contravar; lra).
      assert (J : 48921 / 10 / x <= 104 / 100 * (48921 / 10 / z)).
      { apply (Rmult_le_reg_r (x * z)); [nra|]. replace (48921 / 10 / x * (x * z)) with (48921 / 10 * z) by (field; lra). replace (104 / 100 * (48921 / 10 / z) * (x * z)) with (104 / 100 * (48921 / 10) * x) by (field; lra). lra. }
      assert (I0 : 0 < 48921 / 10 / z) by (apply Rdiv_lt_0_compat; lra).
      set (u := 48921 / 10 / x) in *. set (v := 48921 / 10 / z) in *. clearbody u v.
      assert (U : 0 < u + 16006 / 1000000 * x) by lra. assert (V : 0 < v + 16006 / 1000000 * z) by lra.
      set (a := u + 16006 / 1000000 * x) in *. set (b := v + 16006 / 1000000 * z) in *. assert (AB : b <= 104 / 100 * a) by (unfold a, b; lra). assert (BA : a <= 104 / 100 * b) by (unfold a, b; lra). clearbody a b.
      pose proof (ln_le_mono _ _ V AB) as H1. pose proof (ln_le_mono _ _ U BA) as H2. rewrite ln_mult in H1, H2 by lra. pose proof (ln_upper (104 / 100) ltac:(lra)). lra.
Qed.
Lemma sez_close x z : 0 < x -> x <= z -> z <= 104 / 100 * x -> near (10751 / 10000) (sez x) (sez z) /\ (25 / 1000 <= x -> near (1056 / 1000) (sez x) (sez z)).
Proof.
  intros X XZ ZX. assert (A : near (1056 / 1000) (sfit (Rmax (1000 * x) 25)) (sfit (Rmax (1000 * z) 25))).
  { apply sfit_close.
    + pose proof (Rmax_r (1000 * x) 25). lra.
    + apply Rle_max_compat_r. lra.
    + unfold Rmax. destruct (Rle_dec (1000 * z) 25), (Rle_dec (1000 * x) 25); lra. }
  unfold sez. split.
  - apply (near_weaken (1056 / 1000 * (1 + 45 / 100 * (104 / 100 - 1)))); [lra|]. apply near_mult; [exact A|]. apply (near_within (1 + 45 / 100 * (104 / 100 - 1)) 1); [lra|lra|]. apply pow_near_concave.
    + apply Rdiv_lt_0_compat; [|lra]. unfold Rmin. destruct (Rle_dec (1000 * x) 25); lra.
    + unfold Rmin. destruct (Rle_dec (1000 * x) 25), (Rle_dec (1000 * z) 25); lra.
    + unfold Rmin. destruct (Rle_dec (1000 * x) 25), (Rle_dec (1000 * z) 25); lra.
    + lra.
  - intros XL. rewrite !(Rmin_right _ 25) by lra. replace (25 / 25) with 1 by field. replace (Rpower 1 (45 / 100)) with 1 by (unfold Rpower; rewrite ln_1, Rmult_0_r, exp_0; reflexivity). rewrite !Rmult_1_r. exact A.
Qed.
Lemma low_close x z : 0 < x -> x <= z -> z <= 104 / 100 * x -> near (10751 / 10000) (low x) (low z) /\ (25 / 1000 <= x -> near (1056 / 1000) (low x) (low z)).
Proof.
  intros X XZ ZX. unfold low. rewrite Avogadro_val. pose proof (sez_close x z X XZ ZX) as N.
  replace (100 * (sez x / 14) * (6022140857 / 1000000000)) with (6022140857 / 140000000 * sez x) by field. replace (100 * (sez z / 14) * (6022140857 / 1000000000)) with (6022140857 / 140000000 * sez z) by field.
  destruct N as [N1 N2]. split; [apply near_scale; [lra|exact N1]|]. intros H. apply near_scale; [lra|exact (N2 H)].
Qed.
(** between 10 and 30 MeV *)
Lemma exp_below y : 0 <= y < 1 -> exp y <= / (1 - y).
Proof. intros Y. replace y with (- - y) at 1 by ring. rewrite exp_Ropp. apply Rinv_le_contravar; [lra|]. pose proof (exp_ineq1_le (- y)). lra. Qed.
Lemma sez_range T : 10 <= T <= 30 -> 908 / 100 <= T * sez T <= 1175 / 100 /\ (17 <= T -> 101 / 10 <= T * sez T).
Proof.
  intros H. unfold sez. rewrite Rmax_left, Rmin_right by lra. replace (25 / 25) with 1 by field. replace (Rpower 1 (45 / 100)) with 1 by (unfold Rpower; rewrite ln_1, Rmult_0_r, exp_0; reflexivity). rewrite Rmult_1_r.
  set (e := 1000 * T). assert (E : 10000 <= e <= 30000) by (unfold e; lra). assert (E17 : 17 <= T -> 17000 <= e) by (unfold e; lra). replace T with (e / 1000) in * by (unfold e; field). clearbody e. clear H T.
  assert (L1 : 507 / 100 <= ln (48921 / 10 / e + 16006 / 1000000 * e) <= 6181 / 1000 /\ (17000 <= e -> 56 / 10 <= ln (48921 / 10 / e + 16006 / 1000000 * e))).
  { assert (D : 0 < 48921 / 10 / e <= 5 / 10).
    { split; [apply Rdiv_lt_0_compat; lra|]. apply (Rmult_le_reg_r e); [lra|]. replace (48921 / 10 / e * e) with (48921 / 10) by (field; lra). lra. }
    pose proof (ln_between 16006 100 5070000 5080000 ltac:(vm_compute; reflexivity)) as A. pose proof (ln_between 4807 10 6170000 6181000 ltac:(vm_compute; reflexivity)) as B. pose proof (ln_between 272 1 5600000 5610000 ltac:(vm_compute; reflexivity)) as C. replace (272 / 1) with 272 in C by field.
    set (d := 48921 / 10 / e) in *. clearbody d.
    pose proof (ln_le_mono (16006 / 100) (d + 16006 / 1000000 * e) ltac:(lra) ltac:(lra)). pose proof (ln_le_mono (d + 16006 / 1000000 * e) (4807 / 10) ltac:(lra) ltac:(lra)). split; [lra|]. intros G. pose proof (ln_le_mono 272 (d + 16006 / 1000000 * e) ltac:(lra) ltac:(lra)). lra. }
  destruct L1 as [L1 L17].
  assert (P : 1262 / 1000 * e <= Rpower e (10255 / 10000) <= 1313 / 1000 * e).
  { replace (10255 / 10000) with (1 + 255 / 10000) by lra. rewrite Rpower_plus, Rpower_1 by lra.
    assert (Q : 1262 / 1000 <= Rpower e (255 / 10000) <= 1313 / 1000); [|split; nra]. unfold Rpower.
    pose proof (ln_between 10000 1 9210000 9211000 ltac:(vm_compute; reflexivity)) as A. pose proof (ln_between 30000 1 10308000 10309000 ltac:(vm_compute; reflexivity)) as B. replace (10000 / 1) with 10000 in A by field. replace (30000 / 1) with 30000 in B by field.
    pose proof (ln_le_mono 10000 e ltac:(lra) ltac:(lra)) as A1. pose proof (ln_le_mono e 30000 ltac:(lra) ltac:(lra)) as B1. set (l := ln e) in *. clearbody l. split.
    - apply Rle_trans with (exp (4 * (5871 / 100000))); [|apply exp_mono; lra]. replace (4 * (5871 / 100000)) with (5871 / 100000 + (5871 / 100000 + (5871 / 100000 + 5871 / 100000))) by ring. rewrite !exp_plus.
      assert (X8 : 1060014 / 1000000 <= exp (5871 / 100000)).
      { replace (5871 / 100000) with (4 * (5871 / 400000)) by field. replace (4 * (5871 / 400000)) with (5871 / 400000 + (5871 / 400000 + (5871 / 400000 + 5871 / 400000))) by ring. rewrite !exp_plus. pose proof (exp_ineq1_le (5871 / 400000)) as X1. set (y := exp (5871 / 400000)) in *. clearbody y.
        assert (1029570 / 1000000 <= y * y) by nra. replace (y * (y * (y * y))) with ((y * y) * (y * y)) by ring. set (yy := y * y) in *. clearbody yy. clear - H. nra. }
      set (y := exp (5871 / 100000)) in *. clearbody y. clear - X8. assert (1123629 / 1000000 <= y * y) by nra. replace (y * (y * (y * y))) with ((y * y) * (y * y)) by ring. set (yy := y * y) in *. clearbody yy. nra.
    - apply Rle_trans with (exp (4 * (6572 / 100000))); [apply exp_mono; lra|]. replace (4 * (6572 / 100000)) with (6572 / 100000 + (6572 / 100000 + (6572 / 100000 + 6572 / 100000))) by ring. rewrite !exp_plus.
      pose proof (exp_below (6572 / 100000) ltac:(lra)) as X1. replace (/ (1 - 6572 / 100000)) with (100000 / 93428) in X1 by field. pose proof (exp_pos (6572 / 100000)) as X0. set (y := exp (6572 / 100000)) in *. clearbody y. clear - X0 X1.
      assert (0 < y * y <= 114564 / 100000) by (split; nra). replace (y * (y * (y * y))) with ((y * y) * (y * y)) by ring. set (yy := y * y) in *. clearbody yy. nra. }
  assert (SL : 70 <= sl e).
  { unfold sl. pose proof (exp_pos (50837 / 10000000 * ln e)) as A. fold (Rpower e (50837 / 10000000)) in A.
    assert (B : 1664 / 100 <= Rpower e (30612 / 100000)); [|lra]. apply Rle_trans with (Rpower 10000 (30612 / 100000)); [|apply Rle_Rpower_l; lra].
    unfold Rpower. pose proof (ln_between 10000 1 9210000 9211000 ltac:(vm_compute; reflexivity)) as LA. replace (10000 / 1) with 10000 in LA by field. pose proof (ln_between 1664 100 2811000 2813000 ltac:(vm_compute; reflexivity)) as LB. rewrite <- (exp_ln (1664 / 100)) at 1 by lra. apply exp_mono. lra. }
  assert (SH : 9240 <= e * sh e <= 11730 /\ (17000 <= e -> 10208 <= e * sh e)).
  { unfold sh. set (l := ln _) in *. set (p := Rpower e _) in *. clearbody l p. replace (e * (23942 / 10 / p * l)) with (23942 / 10 * l * (e / p)) by (field; lra).
    assert (Q : 1000 / 1313 <= e / p <= 1000 / 1262).
    { split; apply (Rmult_le_reg_r p); try lra; replace (e / p * p) with e by (field; lra); lra. }
    set (r := e / p) in *. clearbody r. split; [split; nra|]. intros G. specialize (L17 G). nra. }
  unfold sfit. set (a := sl e) in *. set (b := sh e) in *. clearbody a b. destruct SH as [SH SH17]. assert (B : 0 < b /\ e * b <= 11730) by (split; nra).
  assert (F : b - b * b / 70 <= a * b / (a + b) <= b).
  { split; apply (Rmult_le_reg_r (a + b)); try lra; replace (a * b / (a + b) * (a + b)) with (a * b) by (field; lra); [|nra].
    replace ((b - b * b / 70) * (a + b)) with (a * b + b * b * (1 - (a + b) / 70)) by field. assert (b * b * (1 - (a + b) / 70) <= 0); [|lra]. assert (0 < b * b) by nra. assert (1 - (a + b) / 70 <= 0) by lra. nra. }
  set (f := a * b / (a + b)) in *. clearbody f. assert (EB : e * (b - b * b / 70) = (e * b) * (1 - b / 70)) by field. assert (FE : e * (b - b * b / 70) <= e * f <= e * b) by (split; apply Rmult_le_compat_l; lra). rewrite EB in FE.
  assert (B1 : b <= 1173 / 1000) by nra. set (m := e * b) in *. split.
  - split; [|replace (e / 1000 * f) with (e * f / 1000) by field; lra]. replace (e / 1000 * f) with (e * f / 1000) by field. assert (m * (1 - b / 70) >= 9240 * (1 - 1173 / 70000)); [|lra]. apply Rle_ge, Rmult_le_compat; lra.
  - intros G. assert (G1 : 17000 <= e) by lra. specialize (SH17 G1). assert (B2 : b <= 692 / 1000) by (apply Rnot_lt_le; intros Q; assert (17000 * (692 / 1000) <= e * b) by (apply Rmult_le_compat; lra); unfold m in *; lra). replace (e / 1000 * f) with (e * f / 1000) by field. assert (m * (1 - b / 70) >= 10208 * (1 - 692 / 70000)); [|lra]. apply Rle_ge, Rmult_le_compat; lra.
Qed.

(** ** The Bethe formula below 50 GeV *)
Lemma shell_step u v : 0 < v -> v <= u -> u <= 464 / 10 -> u <= 10816 / 10000 * v -> 0 <= shell u - shell v <= 9 / 1000.
Proof.
  intros V VU U UV.
  assert (E : shell u - shell v = (u - v) * (((422377 / 1000000 * (6724 / 1000000) + 3858019 / 1000000 * (551368 / 1000000000)) + (304043 / 10000000 * (6724 / 1000000) - 1667989 / 10000000 * (551368 / 1000000000)) * (u + v)
    - (38106 / 100000000 * (6724 / 1000000) - 157955 / 100000000 * (551368 / 1000000000)) * (u * u + u * v + v * v)) / 7)) by (unfold shell; field).
  rewrite E. clear E. assert (S1 : 0 <= u - v <= 816 / 10000 * v) by lra.
  assert (Q1 : 0 <= u * v <= u * u) by (split; [apply Rmult_le_pos; lra|apply Rmult_le_compat_l; lra]). assert (Q2 : 0 <= v * v <= u * u) by (split; [apply Rmult_le_pos; lra|apply Rmult_le_compat; lra]). assert (Q0 : 0 <= u * u + u * v + v * v <= 3 * (u * u)) by lra. assert (QU : u * u <= 464 / 10 * u) by nra.
  set (q := u * u + u * v + v * v) in *. clearbody q. set (w := u - v) in *.
  assert (K : 0 <= (422377 / 1000000 * (6724 / 1000000) + 3858019 / 1000000 * (551368 / 1000000000) + (304043 / 10000000 * (6724 / 1000000) - 1667989 / 10000000 * (551368 / 1000000000)) * (u + v) - (38106 / 100000000 * (6724 / 1000000) - 157955 / 100000000 * (551368 / 1000000000)) * q) / 7 <= 221 / 100000).
  { split; [|lra]. set (u2 := u * u) in *. clearbody u2. lra. }
  set (k := (_ + _ - _) / 7) in *. clearbody k w. split; [apply Rmult_le_pos; lra|]. apply Rle_trans with (816 / 10000 * v * (221 / 100000)); [apply Rmult_le_compat; lra|nra].
Qed.
Section Settings.
Variable c : Config R.
Hypothesis HZ : c_zeff c = z_none \/ c_zeff c = z_pierce_blann.
Lemma raw_step x z : 10 <= x -> x <= z -> z <= 104 / 100 * x -> - (3 / 100) <= raw_log c z 82 7 - raw_log c x 82 7 <= 91 / 1000.
Proof.
  intros X XZ ZX. rewrite !raw_log_value by lra. pose proof (eta2_low x X) as E0. destruct (eta2_step x z ltac:(lra) XZ ZX) as [E1 E2]. pose proof (bare_step _ _ E0 E1 E2) as BS.
  pose proof (inv_eta2 x X) as IX. pose proof (inv_eta2 z ltac:(lra)) as IZ. assert (I1 : / eta2 z <= / eta2 x) by (apply Rinv_le_contravar; lra).
  assert (I2 : / eta2 x <= 10816 / 10000 * / eta2 z).
  { apply (Rmult_le_reg_r (eta2 x * eta2 z)); [apply Rmult_lt_0_compat; lra|]. replace (/ eta2 x * (eta2 x * eta2 z)) with (eta2 z) by (field; lra). replace (10816 / 10000 * / eta2 z * (eta2 x * eta2 z)) with (10816 / 10000 * eta2 x) by (field; lra). exact E2. }
  pose proof (shell_step (/ eta2 x) (/ eta2 z) ltac:(lra) I1 ltac:(lra) I2) as SS. destruct (negb _); lra.
Qed.
Lemma logm_mid z : 10 <= z <= 49700 -> logm z < 17378 / 10000.
Proof.
  intros H. pose proof (eta2_low z ltac:(lra)) as E0. assert (E : eta2 z <= 2954).
  { unfold eta2. pose proof u0_pos as U. assert (Q : 0 <= z / u0 <= 53356 / 1000) by (split; apply (Rmult_le_reg_r u0); try exact U; replace (z / u0 * u0) with z by (field; lra); unfold u0; lra). set (q := z / u0) in *. clearbody q. nra. }
  pose proof (ln_between 2954 1 7990000 7991000 ltac:(vm_compute; reflexivity)) as L. replace (2954 / 1) with 2954 in L by field. pose proof (ln_le_mono (eta2 z) 2954 ltac:(lra) E). unfold logm. lra.
Qed.
Lemma bracket_mid T : inside c T -> T <= 49700 -> bracket c T = raw_log c T 82 7 * barkas c T + LS c T /\ 535 / 100 <= raw_log c T 82 7 /\ 1 <= barkas c T <= 1004 / 1000 /\ - (16 / 1000) <= LS c T <= 19 / 1000.
Proof.
  intros IN TM. pose proof IN as [H _]. destruct (LS_range c T IN) as [[_ A1] A2]. specialize (A2 ltac:(lra)). pose proof (barkas_bounds c HZ T H) as B. destruct (raw_facts c T H) as [_ LX].
  split; [|lra]. unfold bracket. pose proof (logm_mid T ltac:(lra)) as LM. assert (D1 : dens (logm T) = 0) by (unfold dens; destruct (Rlt_dec _ _); [reflexivity|exfalso; lra]). rewrite D1. field.
Qed.
Lemma bracket_close x z : 10 <= x -> x <= z -> z <= 104 / 100 * x -> inside c z -> z <= 49700 -> within (1028 / 1000) (10165 / 10000) (bracket c x) (bracket c z).
Proof.
  intros X XZ ZX IN ZM. destruct (bracket_mid z IN ZM) as (EZ & RZ & BZ & LZ). destruct (bracket_mid x (inside_x c x z X XZ IN) ltac:(lra)) as (EX & RX & BX & LX). pose proof (raw_step x z X XZ ZX) as RS.
  rewrite EX, EZ. set (r := raw_log c x 82 7) in *. set (s := raw_log c z 82 7) in *. set (b := barkas c x) in *. set (d := barkas c z) in *. set (l := LS c x) in *. set (m := LS c z) in *. clearbody r s b d l m.
  assert (r <= r * b <= 1004 / 1000 * r) by (split; nra). assert (s <= s * d <= 1004 / 1000 * s) by (split; nra). set (rb := r * b) in *. set (sd := s * d) in *. clearbody rb sd. repeat split; lra.
Qed.
Lemma charge2_close x z : 10 <= x -> x <= z -> within (100603 / 100000) (100603 / 100000) (charge c x * charge c x) (charge c z * charge c z).
Proof.
  intros X XZ. pose proof (charge_range c HZ x X) as CX. pose proof (charge_range c HZ z ltac:(lra)) as CZ.
  apply (within_weaken ((1 + 3 / 1000 / (997 / 1000)) * (1 + 3 / 1000 / (997 / 1000))) ((1 + 3 / 1000 / (997 / 1000)) * (1 + 3 / 1000 / (997 / 1000)))); [lra|lra|]. apply within_mult; apply within_near, near_diff; lra.
Qed.
Lemma weight_within x z : 0 < x -> x <= z -> z <= 104 / 100 * x -> within 1 (104 / 100) (1 + / eta2 x) (1 + / eta2 z).
Proof.
  intros X XZ ZX. destruct (weight_step x z X XZ ZX) as (A & B & _ & D). split; [exact A|]. split; [exact B|]. split; [|exact D].
  pose proof u0_pos as U. assert (P : forall T, 0 < T -> 0 < eta2 T) by (intros T T0; unfold eta2; assert (0 < T / u0) by (apply pos_quot; assumption); nra).
  destruct (eta2_step x z X XZ ZX) as [E1 _]. pose proof (P x X) as EX. assert (I1 : / eta2 z <= / eta2 x) by (apply Rinv_le_contravar; lra). lra.
Qed.
Lemma high_close x z : 10 <= x -> x <= z -> z <= 104 / 100 * x -> inside c z -> z <= 49700 -> within (10343 / 10000) (10636 / 10000) (high c x) (high c z).
Proof.
  intros X XZ ZX IN ZM. unfold high. rewrite dedx_constant_val.
  apply (within_weaken (100603 / 100000 * (1 * (1028 / 1000)) * 1) (100603 / 100000 * (104 / 100 * (10165 / 10000)) * 1)); [lra|lra|]. apply within_mult; [apply within_mult; [now apply charge2_close|]|repeat split; lra].
  apply within_mult; [apply weight_within; lra|now apply bracket_close].
Qed.
(** between 10 and 30 MeV *)
Lemma high_range T : 10 <= T <= 30 -> inside c T -> 378 <= T * high c T <= 5179 / 10 /\ (17 <= T -> 430 <= T * high c T).
Proof.
  intros H IN. assert (EU : eta2 T <= 66 / 1000).
  { unfold eta2. assert (T / u0 <= 324 / 10000) by (apply (Rmult_le_reg_r u0); [apply u0_pos|]; unfold Rdiv; rewrite Rmult_assoc, Rinv_l by (pose proof u0_pos; lra); unfold u0; lra). assert (0 <= T / u0) by (apply Rmult_le_pos; [lra|left; apply Rinv_0_lt_compat, u0_pos]). nra. }
  pose proof (eta2_low T ltac:(lra)) as E0. destruct (bracket_mid T IN ltac:(lra)) as (EB & R0 & B & L).
  assert (BR : 533 / 100 <= bracket c T <= 6897 / 1000 /\ (17 <= T -> 592 / 100 <= bracket c T)).
  { rewrite EB. destruct (raw_facts c T ltac:(lra)) as [[R2 R1] _].
    assert (BU : bare_log (eta2 T) <= 671 / 100).
    { unfold bare_log. pose proof (ln_between 823 1 6710000 6720000 ltac:(vm_compute; reflexivity)) as LB. replace (823 / 1) with 823 in LB by field. pose proof (ln_le_mono (1021997856 / 82000 * eta2 T) 823 ltac:(lra) ltac:(lra)).
      assert (2 / 100 <= eta2 T / (1 + eta2 T)) by (apply (Rmult_le_reg_r (1 + eta2 T)); [lra|]; replace (eta2 T / (1 + eta2 T) * (1 + eta2 T)) with (eta2 T) by (field; lra); lra). lra. }
    assert (BL : 17 <= T -> 608 / 100 <= bare_log (eta2 T)).
    { intros G. assert (E17 : 367 / 10000 <= eta2 T).
      { unfold eta2. assert (182 / 10000 <= T / u0) by (apply (Rmult_le_reg_r u0); [apply u0_pos|]; unfold Rdiv; rewrite !Rmult_assoc, Rinv_l by (pose proof u0_pos; lra); unfold u0; lra). set (t := T / u0) in *. clearbody t. nra. }
      set (e := eta2 T) in *. clearbody e. unfold bare_log. rewrite ln_mult by lra. pose proof (ln_between 457 1 6124000 6125000 ltac:(vm_compute; reflexivity)) as LB. replace (457 / 1) with 457 in LB by field.
      assert (LM : 6124 / 1000 <= ln (1021997856 / 82000) + ln (367 / 10000)) by (rewrite <- ln_mult by lra; pose proof (ln_le_mono 457 (1021997856 / 82000 * (367 / 10000)) ltac:(lra) ltac:(lra)); lra).
      assert (LQ : ln (367 / 10000) + (e - 367 / 10000) <= ln e).
      { pose proof (ln_upper (367 / 10000 * / e) ltac:(apply Rmult_lt_0_compat; [lra|apply Rinv_0_lt_compat; lra])) as LU. rewrite ln_mult in LU by (try apply Rinv_0_lt_compat; lra). rewrite ln_Rinv in LU by lra.
        assert (e - 367 / 10000 <= 1 - 367 / 10000 * / e); [|lra]. apply (Rmult_le_reg_r e); [lra|]. replace ((1 - 367 / 10000 * / e) * e) with (e - 367 / 10000) by (field; lra). nra. }
      assert (DQ : e / (1 + e) <= 367 / 10367 + (e - 367 / 10000)).
      { apply (Rmult_le_reg_r (1 + e)); [lra|]. replace (e / (1 + e) * (1 + e)) with e by (field; lra). nra. }
      lra. }
    set (r := raw_log c T 82 7) in *. set (b := barkas c T) in *. set (l := LS c T) in *. set (bl := bare_log _) in *. clearbody r b l bl. split; [split; nra|]. intros G. specialize (BL G). nra. }
  assert (W : 46574 / 100 <= T * (1 + / eta2 T) <= 489 /\ (17 <= T -> 4783 / 10 <= T * (1 + / eta2 T))).
  { assert (V : T * (1 + / eta2 T) = u0 * (T / u0 + / (2 + T / u0))).
    { unfold eta2. pose proof u0_pos as U. assert (0 < T / u0) by (apply pos_quot; lra). replace T with (u0 * (T / u0)) at 1 by (field; lra). set (t := T / u0) in *. clearbody t. field. split; nra. }
    rewrite V. assert (T1 : 1073 / 100000 <= T / u0 <= 324 / 10000).
    { split; apply (Rmult_le_reg_r u0); try apply u0_pos; unfold Rdiv; rewrite !Rmult_assoc, Rinv_l by (pose proof u0_pos; lra); unfold u0; lra. }
    assert (T17 : 17 <= T -> 182 / 10000 <= T / u0).
    { intros G. apply (Rmult_le_reg_r u0); [apply u0_pos|]; unfold Rdiv; rewrite !Rmult_assoc, Rinv_l by (pose proof u0_pos; lra); unfold u0; lra. }
    set (t := T / u0) in *. clearbody t.
    assert (I2 : 5 / 10 <= t + / (2 + t)).
    { apply (Rmult_le_reg_r (2 + t)); [lra|]. rewrite Rmult_plus_distr_r, Rinv_l by lra. nra. }
    assert (I3 : t + / (2 + t) <= 5249 / 10000).
    { apply (Rmult_le_reg_r (2 + t)); [lra|]. rewrite Rmult_plus_distr_r, Rinv_l by lra. nra. }
    split; [unfold u0; lra|]. intros G. specialize (T17 G). assert (I4 : 5136 / 10000 <= t + / (2 + t)).
    { apply (Rmult_le_reg_r (2 + t)); [lra|]. rewrite Rmult_plus_distr_r, Rinv_l by lra. nra. }
    unfold u0. lra. }
  pose proof (charge_range c HZ T ltac:(lra)) as C. unfold high. rewrite dedx_constant_val.
  assert (C2 : 994 / 1000 <= charge c T * charge c T <= 1) by (split; nra).
  set (c2 := charge c T * charge c T) in *. set (b := bracket c T) in *. set (w := 1 + / eta2 T) in *. clearbody c2 b w. clear EU E0 EB R0 B L C.
  replace (T * (c2 * (w * b) * (3070749187 / 10000000000 / 2))) with (c2 * ((T * w) * b) * (3070749187 / 20000000000)) by field. set (q := T * w) in *. clearbody q. destruct BR as [BR BR17]. destruct W as [W W17].
  assert (M : 24823 / 10 <= q * b <= 33727 / 10) by (split; nra). assert (M17 : 17 <= T -> 2831 <= q * b) by (intros G; specialize (BR17 G); specialize (W17 G); apply Rle_trans with (4783 / 10 * (592 / 100)); [lra|apply Rmult_le_compat; lra]).
  set (m := q * b) in *. clearbody m. split; [split; nra|]. intros G. specialize (M17 G). nra.
Qed.

(** ** The stopping power *)
Hypothesis HL : (c_low c =? srim_95)%Z = false.
Lemma low_high_close T : 10 <= T <= 30 -> inside c T -> near (134 / 100) (low T) (high c T) /\ (17 <= T -> near (12 / 10) (low T) (high c T)).
Proof.
  intros H IN. destruct (sez_range T H) as [S S17]. destruct (high_range T H IN) as [B B17]. unfold low. rewrite Avogadro_val. set (s := sez T) in *. set (b := high c T) in *. clearbody s b.
  assert (0 < s) by nra. assert (0 < b) by nra. split; [|intros G; specialize (S17 G); specialize (B17 G)]; repeat split; try lra; apply (Rmult_le_reg_l T); lra.
Qed.
Lemma mix_close f g r s b s' b' : 0 <= f -> f <= g -> g <= 1 -> 0 <= r -> (g - f) * r <= 12 / 1000 -> near (1056 / 1000) s s' -> within (10343 / 10000) (10636 / 10000) b b' -> near (1 + r) s b -> near (1 + r) s' b' ->
  within (1069 / 1000) (1077 / 1000) ((1 - f) * s + f * b) ((1 - g) * s' + g * b').
Proof.
  intros F0 FG G1 R0 D (S0 & S1 & SU & SD) (B0 & B1 & BU & BD) (_ & _ & C1 & C2) (_ & _ & C3 & C4).
  assert (P : 0 < (1 - f) * s + f * b) by (destruct (Req_dec f 0) as [->|N]; [lra|]; assert (0 < f * b) by nra; assert (0 <= (1 - f) * s) by nra; lra).
  assert (Q : 0 < (1 - g) * s' + g * b') by (destruct (Req_dec g 0) as [->|N]; [lra|]; assert (0 < g * b') by nra; assert (0 <= (1 - g) * s') by nra; lra).
  split; [exact P|]. split; [exact Q|]. split.
  - assert (M : (1 - g) * s' + g * b' <= 1056 / 1000 * ((1 - g) * s + g * b)).
    { replace (1056 / 1000 * ((1 - g) * s + g * b)) with ((1 - g) * (1056 / 1000 * s) + g * (1056 / 1000 * b)) by ring. apply Rplus_le_compat; apply Rmult_le_compat_l; lra. }
    assert (E : (1 - g) * s + g * b = (1 - f) * s + f * b + (g - f) * (b - s)) by ring. assert (K : (g - f) * (b - s) <= 12 / 1000 * ((1 - f) * s + f * b)); [|lra].
    destruct (Rle_dec b s) as [L|L]; [assert ((g - f) * (b - s) <= 0) by nra; lra|]. assert (s <= (1 - f) * s + f * b) by nra. assert ((g - f) * (b - s) <= (g - f) * (r * s)) by (apply Rmult_le_compat_l; lra). assert ((g - f) * r * s <= 12 / 1000 * s) by (apply Rmult_le_compat_r; lra). lra.
  - assert (M : (1 - f) * s + f * b <= 10636 / 10000 * ((1 - f) * s' + f * b')).
    { replace (10636 / 10000 * ((1 - f) * s' + f * b')) with ((1 - f) * (10636 / 10000 * s') + f * (10636 / 10000 * b')) by ring. apply Rplus_le_compat; apply Rmult_le_compat_l; lra. }
    assert (E : (1 - f) * s' + f * b' = (1 - g) * s' + g * b' + (g - f) * (s' - b')) by ring. assert (K : (g - f) * (s' - b') <= 12 / 1000 * ((1 - g) * s' + g * b')); [|lra].
    destruct (Rle_dec s' b') as [L|L]; [assert ((g - f) * (s' - b') <= 0) by nra; lra|]. assert (b' <= (1 - g) * s' + g * b') by nra. assert ((g - f) * (s' - b') <= (g - f) * (r * b')) by (apply Rmult_le_compat_l; lra). assert ((g - f) * r * b' <= 12 / 1000 * b') by (apply Rmult_le_compat_r; lra). lra.
Qed.
Section Step.
  Variables x z : R.
  Hypothesis X : 0 < x.
  Hypothesis XZ : x <= z.
  Hypothesis ZX : z <= 104 / 100 * x.
  Hypothesis ZM : z <= 49700.
  Hypothesis IN : 10 < z -> inside c z.
  Lemma blend_below : z <= 3 / 10 -> near (10751 / 10000) (blend c x) (blend c z).
  Proof. intros Z3. unfold blend. destruct (Rle_dec x 10); [|lra]. destruct (Rle_dec z 10); [|lra]. apply (low_close x z X XZ ZX). Qed.
  Lemma blend_mid : 25 / 1000 <= x -> x <= 10 -> near (1064 / 1000) (blend c x) (blend c z).
  Proof.
    intros X1 X2. unfold blend. destruct (Rle_dec x 10) as [_|C]; [|lra]. destruct (low_close x z X XZ ZX) as [_ LN]. specialize (LN X1). destruct (Rle_dec z 10) as [B|B]; [apply (near_weaken (1056 / 1000)); [lra|exact LN]|].
    specialize (IN ltac:(lra)). destruct (Rlt_dec z 30) as [C|C]; [|lra]. rewrite full_high by lra. destruct (low_high_close z ltac:(lra) IN) as [(P1 & P2 & P3 & P4) _]. destruct LN as (L0 & L1 & L2 & L3). set (s := low x) in *. set (s' := low z) in *. set (b := high c z) in *. clearbody s s' b.
    assert (G : 0 < 1 / 20 * (z - 10) <= 2 / 100) by lra. set (g := 1 / 20 * (z - 10)) in *. clearbody g. assert (E : (1 - g) * s' + g * b = s' + g * (b - s')) by ring. rewrite E.
    assert (K : - (68 / 10000) * s' <= g * (b - s') <= 68 / 10000 * s').
    { split; [|apply Rle_trans with (g * (34 / 100 * s')); [apply Rmult_le_compat_l; lra|nra]]. apply Rle_trans with (g * (- (34 / 100) * s')); [nra|apply Rmult_le_compat_l; lra]. }
    repeat split; lra.
  Qed.
  Lemma blend_both : 10 < x -> x < 30 -> within (1069 / 1000) (1077 / 1000) (blend c x) (blend c z).
  Proof.
    intros X1 X2. unfold blend. destruct (Rle_dec x 10) as [C|_]; [lra|]. destruct (Rle_dec z 10) as [C|_]; [lra|]. destruct (Rlt_dec x 30) as [_|C]; [|lra]. specialize (IN ltac:(lra)). pose proof (inside_x c x z ltac:(lra) XZ IN) as INX.
    pose proof (high_close x z ltac:(lra) XZ ZX IN ZM) as HN. rewrite !full_high by lra. destruct (low_close x z X XZ ZX) as [_ LN]. specialize (LN ltac:(lra)). destruct (low_high_close x ltac:(lra) INX) as [PX PX17]. destruct (Rlt_dec z 30) as [D|D].
    - destruct (low_high_close z ltac:(lra) IN) as [PZ PZ17]. destruct (Rle_dec x 17) as [Q|Q].
      + apply (mix_close _ _ (34 / 100)); try assumption; try lra; apply (near_weaken (134 / 100)); lra || assumption.
      + apply (mix_close _ _ (2 / 10)); try assumption; try lra; apply (near_weaken (12 / 10)); [lra|apply PX17; lra|lra|apply PZ17; lra].
    - specialize (PX17 ltac:(lra)). destruct PX17 as (P1 & P2 & P3 & P4). destruct HN as (H0 & H1 & H2 & H3). set (s := low x) in *. set (b := high c x) in *. set (b' := high c z) in *. clearbody s b b'.
      assert (G : 0 < 1 - 1 / 20 * (x - 10) <= 58 / 1000) by lra. set (g := 1 - 1 / 20 * (x - 10)) in *. replace (1 / 20 * (x - 10)) with (1 - g) by (unfold g; ring). clearbody g.
      assert (E : g * s + (1 - g) * b = b + g * (s - b)) by ring. rewrite E. assert (K : - (12 / 1000) * b <= g * (s - b) <= 12 / 1000 * b).
      { split; [|apply Rle_trans with (g * (2 / 10 * b)); [apply Rmult_le_compat_l; lra|nra]]. apply Rle_trans with (g * (- (2 / 10) * b)); [nra|apply Rmult_le_compat_l; lra]. }
      repeat split; lra.
  Qed.
  Variables rho th : R.
  Definition stop (T : R) : R := dedx_n (F:=R) (proton_at T) (gas rho th) + blend c T.
  Lemma stop_below : z <= 3 / 10 -> near (10751 / 10000) (stop x) (stop z).
  Proof. intros H. apply near_plus; [apply (near_weaken (1061 / 1000)); [lra|now apply nuclear_close]|now apply blend_below]. Qed.
  Lemma stop_mid : 25 / 1000 <= x -> x <= 10 -> near (1064 / 1000) (stop x) (stop z).
  Proof. intros H1 H2. apply near_plus; [apply (near_weaken (1061 / 1000)); [lra|now apply nuclear_close]|now apply blend_mid]. Qed.
  Lemma stop_both : 10 < x -> x < 30 -> within (1069 / 1000) (1077 / 1000) (stop x) (stop z).
  Proof. intros H1 H2. apply within_plus; [apply (within_weaken (1061 / 1000) (1061 / 1000)); [lra|lra|]; apply within_near; now apply nuclear_close|now apply blend_both]. Qed.
End Step.
(** above 30 MeV nuclear stopping is a correction of less than a tenth of a percent *)
Lemma high_lower T : inside c T -> T <= 49700 -> 378 <= T * high c T /\ 8 / 10 <= high c T.
Proof.
  intros IN TM. pose proof IN as [H _]. destruct (high_near c HZ T T H ltac:(lra) ltac:(lra) IN) as (_ & H8 & _). split; [|exact H8]. destruct (Rle_dec T 30) as [Q|Q]; [destruct (high_range T ltac:(lra) IN) as [B _]; lra|].
  destruct (bracket_mid T IN TM) as (EB & R0 & B & L). assert (BR : 533 / 100 <= bracket c T) by (rewrite EB; set (r := raw_log c T 82 7) in *; set (b := barkas c T) in *; clearbody r b; nra).
  assert (W : 46574 / 100 <= T * (1 + / eta2 T)).
  { assert (V : T * (1 + / eta2 T) = u0 * (T / u0 + / (2 + T / u0))).
    { unfold eta2. pose proof u0_pos as U. assert (0 < T / u0) by (apply pos_quot; lra). replace T with (u0 * (T / u0)) at 1 by (field; lra). set (t := T / u0) in *. clearbody t. field. split; nra. }
    rewrite V. assert (T1 : 0 < T / u0) by (apply pos_quot; [lra|apply u0_pos]). set (t := T / u0) in *. clearbody t.
    assert (I2 : 5 / 10 <= t + / (2 + t)) by (apply (Rmult_le_reg_r (2 + t)); [lra|]; rewrite Rmult_plus_distr_r, Rinv_l by lra; nra). unfold u0. lra. }
  pose proof (charge_range c HZ T H) as C. unfold high. rewrite dedx_constant_val. assert (C2 : 994 / 1000 <= charge c T * charge c T) by nra.
  set (c2 := charge c T * charge c T) in *. set (b := bracket c T) in *. set (w := 1 + / eta2 T) in *. clearbody c2 b w. clear EB R0 B L C H8.
  replace (T * (c2 * (w * b) * (3070749187 / 10000000000 / 2))) with (c2 * ((T * w) * b) * (3070749187 / 20000000000)) by field. set (q := T * w) in *. clearbody q.
  assert (24823 / 10 <= q * b) by nra. set (m := q * b) in *. clearbody m. nra.
Qed.
Lemma stop_high rho th T : 30 <= T -> inside c T -> T <= 49700 -> exists n, stop rho th T = high c T * (1 + n) /\ 0 < n <= 1 / 1000.
Proof.
  intros T3 IN TM. destruct (high_lower T IN TM) as [H1 H2]. pose proof (nuclear_small rho th T ltac:(lra)) as N. exists (dedx_n (F:=R) (proton_at T) (gas rho th) / high c T). split.
  - unfold stop, blend. destruct (Rle_dec T 10); [lra|]. destruct (Rlt_dec T 30); [lra|]. rewrite full_high by lra. field. lra.
  - set (d := dedx_n (F:=R) (proton_at T) (gas rho th)) in *. set (h := high c T) in *. clearbody d h. assert (0 < d) by nra. split; [apply pos_quot; lra|]. apply (Rmult_le_reg_r h); [lra|]. replace (d / h * h) with d by (field; lra). apply (Rmult_le_reg_l T); lra.
Qed.
End Settings.
