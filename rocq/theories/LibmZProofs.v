(** * The libm of [LibmZ] is accurate: exp and log are within four units of the last place *)
From Flocq Require Import Core BinarySingleNaN PrimFloat.
From Coq Require Import ZArith Reals List Bool Lra Lia Floats SpecFloat.
From Verif Require Import Num NumR NumF Binary64 Binary64Num LnBounds LibmZ.
Import ListNotations.
Local Open Scope R_scope.

(** ** Integers and powers of two *)
Notation pw := (bpow radix2).
Lemma pw_Z k : (0 <= k)%Z -> pw k = IZR (2 ^ k).
Proof. intros H. rewrite <- IZR_Zpower by assumption. reflexivity. Qed.
Lemma shiftl_bounds n k : IZR n * pw k - 1 < IZR (Z.shiftl n k) <= IZR n * pw k.
Proof.
  destruct (Z_le_gt_dec 0 k) as [H|H].
  - rewrite Z.shiftl_mul_pow2, mult_IZR, <- pw_Z by assumption. lra.
  - rewrite Z.shiftl_div_pow2 by lia. assert (P : (0 < 2 ^ (- k))%Z) by (apply Z.pow_pos_nonneg; lia).
    pose proof (div_le n (2 ^ (- k)) P) as [A B]. rewrite <- pw_Z in A, B by lia. rewrite bpow_opp in A, B. unfold Rdiv in A, B. rewrite Rinv_inv in A, B. lra.
Qed.
Lemma shiftr_bounds n k : IZR n * pw (- k) - 1 < IZR (Z.shiftr n k) <= IZR n * pw (- k).
Proof. rewrite <- Z.shiftl_opp_r. apply shiftl_bounds. Qed.

(** ** Rounding at the end *)
Lemma out_val n e : Rabs (IZR n * pw e) <= big -> fin (out n e) /\ val (out n e) = rnd (IZR n * pw e).
Proof.
  intros H. unfold out. change (SpecFloat.binary_normalize 53 1024 n e false) with (SpecFloat.binary_normalize prec emax n e false). rewrite (binary_normalize_equiv n e false). change (SF2Prim (B2SF ?b)) with (B2Prim b). unfold fin, val. rewrite Prim2B_B2Prim.
  pose proof (binary_normalize_correct 53 1024 Hprec Hmax mode_NE n e false) as C. cbv zeta in C. unfold F2R in C. cbn [Fnum Fexp] in C.
  change (round radix2 (SpecFloat.fexp 53 1024) (round_mode mode_NE) (IZR n * pw e)) with (rnd (IZR n * pw e)) in C. rewrite (rnd_small _ H) in C. destruct C as (A & B & _). split; [exact B|exact A].
Qed.
Lemma out_near n e r eps : Rabs r <= big / 2 -> 0 <= eps <= 1 -> Rabs (IZR n * pw e - r) <= eps * Rabs r ->
  fin (out n e) /\ Rabs (val (out n e) - r) <= (eps + u * (1 + eps)) * Rabs r + tiny.
Proof.
  intros HB HE H. set (v := IZR n * pw e) in *.
  assert (AV : Rabs v <= Rabs r * (1 + eps)). { replace v with (r + (v - r)) by ring. eapply Rle_trans; [apply Rabs_triang|]. lra. }
  destruct (out_val n e) as [F V]. { fold v. pose proof (Rabs_pos r). nra. }
  split; [exact F|]. rewrite V. fold v. pose proof (rnd_error v) as E. pose proof u_pos as U. pose proof (Rabs_pos r).
  replace (rnd v - r) with ((rnd v - v) + (v - r)) by ring. eapply Rle_trans; [apply Rabs_triang|]. assert (u * Rabs v <= u * (Rabs r * (1 + eps))) by (apply Rmult_le_compat_l; lra). lra.
Qed.

(** ** Horner's rule *)
Fixpoint poly (qs : list R) (x : R) : R := match qs with [] => 0 | q :: qs' => q + x * poly qs' x end.
Section Horner.
Variable b : R.
Hypothesis B : 0 <= b < 1.
Lemma inv_b : 1 <= / (1 - b) /\ / (1 - b) * b = / (1 - b) - 1.
Proof. split; [rewrite <- Rinv_1 at 1; apply Rinv_le_contravar; lra|field; lra]. Qed.
Lemma poly_bound qs x : Rabs x <= b -> Forall (fun q => Rabs q <= 1) qs -> Rabs (poly qs x) <= / (1 - b).
Proof.
  intros X. destruct inv_b as [I1 I2]. induction 1 as [|q qs Q _ IH]; cbn [poly]; [rewrite Rabs_R0; lra|].
  eapply Rle_trans; [apply Rabs_triang|]. rewrite Rabs_mult. assert (Rabs x * Rabs (poly qs x) <= b * / (1 - b)) by (apply Rmult_le_compat; auto using Rabs_pos). lra.
Qed.
Lemma poly_lipschitz qs x y : Rabs x <= b -> Rabs y <= b -> Forall (fun q => Rabs q <= 1) qs -> Rabs (poly qs x - poly qs y) <= Rabs (x - y) * (/ (1 - b) * / (1 - b)).
Proof.
  intros X Y. destruct inv_b as [I1 I2]. set (j := / (1 - b)) in *. induction 1 as [|q qs Q QS IH]; cbn [poly].
  - rewrite Rminus_eq_0, Rabs_R0. pose proof (Rabs_pos (x - y)). assert (0 <= j * j) by nra. nra.
  - replace (q + x * poly qs x - (q + y * poly qs y)) with (x * (poly qs x - poly qs y) + (x - y) * poly qs y) by ring.
    eapply Rle_trans; [apply Rabs_triang|]. rewrite !Rabs_mult. pose proof (poly_bound qs y Y QS) as PB. fold j in PB.
    assert (A1 : Rabs x * Rabs (poly qs x - poly qs y) <= b * (Rabs (x - y) * (j * j))) by (apply Rmult_le_compat; auto using Rabs_pos).
    assert (A2 : Rabs (x - y) * Rabs (poly qs y) <= Rabs (x - y) * j) by (apply Rmult_le_compat_l; auto using Rabs_pos).
    replace (b * (Rabs (x - y) * (j * j))) with (Rabs (x - y) * (j * (j * b))) in A1 by ring. rewrite I2 in A1. replace (j * (j - 1)) with (j * j - j) in A1 by ring. lra.
Qed.
(** coefficients and argument in units of 2^-p *)
Lemma horner_error p cs qs r : Forall2 (fun c q => Rabs (IZR c - pw p * q) <= 1) cs qs -> Rabs (IZR r * pw (- p)) <= b ->
  Rabs (IZR (horner p cs r) - pw p * poly qs (IZR r * pw (- p))) <= 2 * / (1 - b).
Proof.
  intros H X. destruct inv_b as [I1 I2]. set (j := / (1 - b)) in *. set (x := IZR r * pw (- p)) in *. assert (PP : pw p * pw (- p) = 1) by (rewrite <- bpow_plus, Z.add_opp_diag_r; reflexivity).
  induction H as [|c q cs qs C _ IH]; cbn [horner poly].
  - replace (IZR 0 - pw p * 0) with 0 by (simpl; ring). rewrite Rabs_R0. lra.
  - rewrite plus_IZR. pose proof (shiftr_bounds (horner p cs r * r) p) as S. rewrite mult_IZR in S. set (h := IZR (horner p cs r)) in *. set (s := IZR (Z.shiftr (horner p cs r * r) p)) in *.
    replace (h * IZR r * pw (- p)) with (h * x) in S by (unfold x; ring).
    replace (IZR c + s - pw p * (q + x * poly qs x)) with ((IZR c - pw p * q) + ((s - h * x) + x * (h - pw p * poly qs x))) by ring.
    eapply Rle_trans; [apply Rabs_triang|]. assert (S1 : Rabs (s - h * x) <= 1) by (apply Rabs_le; lra).
    pose proof (Rabs_triang (s - h * x) (x * (h - pw p * poly qs x))) as T. rewrite Rabs_mult in T.
    assert (Rabs x * Rabs (h - pw p * poly qs x) <= b * (2 * j)) by (apply Rmult_le_compat; auto using Rabs_pos). lra.
Qed.
End Horner.

(** ** log *)
Definition odds : list R := map (fun i => / (2 * INR i + 1)) (seq 0 28).
Lemma odd_coeffs_map : odd_coeffs = map (fun i => (2 ^ 120 / (2 * Z.of_nat i + 1))%Z) (seq 0 28).
Proof. vm_compute. reflexivity. Qed.
Lemma div_near a q : (0 < q)%Z -> Rabs (IZR (a / q) - IZR a * / IZR q) <= 1.
Proof. intros Q. pose proof (div_le a q Q) as [A C]. unfold Rdiv in A, C. apply Rabs_le. lra. Qed.
Lemma odd_INR i : IZR (2 * Z.of_nat i + 1) = 2 * INR i + 1.
Proof. rewrite plus_IZR, mult_IZR, INR_IZR_INZ. reflexivity. Qed.
Lemma odd_coeffs_ok : Forall2 (fun c q => Rabs (IZR c - pw 120 * q) <= 1) odd_coeffs odds.
Proof.
  rewrite odd_coeffs_map. unfold odds. generalize (seq 0 28) as l. induction l as [|i l IH]; [constructor|]. cbn [map]. constructor; [|exact IH].
  rewrite pw_Z by lia. rewrite <- odd_INR. apply div_near. lia.
Qed.
Lemma odds_le : Forall (fun q => Rabs q <= 1) odds.
Proof.
  unfold odds. apply Forall_map. apply Forall_forall. intros i _. pose proof (pos_INR i). rewrite Rabs_pos_eq by (left; apply Rinv_0_lt_compat; lra). rewrite <- Rinv_1. apply Rinv_le_contravar; lra.
Qed.
(** the polynomial is the series of LnBounds *)
Lemma ser_poly y : forall n, ser n y = 2 * y * poly (map (fun i => / (2 * INR i + 1)) (seq 0 n)) (y * y).
Proof.
  assert (SH : forall n k, poly (map (fun i => / (2 * INR i + 1)) (seq k (S n))) (y * y) =
    poly (map (fun i => / (2 * INR i + 1)) (seq k n)) (y * y) + (y * y) ^ n * / (2 * INR (k + n) + 1)).
  { induction n as [|n IH]; intros k; [cbn [seq map poly pow]; rewrite Nat.add_0_r; ring|].
    change (seq k (S (S n))) with (k :: seq (S k) (S n)). change (seq k (S n)) with (k :: seq (S k) n). cbn [map poly]. rewrite IH. replace (S k + n)%nat with (k + S n)%nat by lia. cbn [pow]. ring. }
  induction n as [|n IH]; [cbn; ring|]. rewrite SH. cbn [ser]. rewrite IH. replace (2 * n + 1)%nat with (S (2 * n)) by lia. cbn [pow]. rewrite pow_mult. replace (y ^ 2) with (y * y) by ring. cbn [plus]. unfold Rdiv. ring.
Qed.
Lemma ser_opp n y : ser n (- y) = - ser n y.
Proof. rewrite !ser_poly. replace (- y * - y) with (y * y) by ring. ring. Qed.
Lemma ln_ratio_opp y : -1 < y < 1 -> ln ((1 + - y) / (1 - - y)) = - ln ((1 + y) / (1 - y)).
Proof.
  intros Y. replace (1 + - y) with (1 - y) by ring. replace (1 - - y) with (1 + y) by ring. replace ((1 - y) / (1 + y)) with (/ ((1 + y) / (1 - y))) by (field; lra). rewrite ln_Rinv; [reflexivity|].
  apply Rmult_lt_0_compat; [lra|apply Rinv_0_lt_compat; lra].
Qed.
Lemma ln_series_abs n y : Rabs y <= 1 / 4 -> Rabs (ln ((1 + y) / (1 - y)) - ser n y) <= 9 / 4 * Rabs y ^ (2 * n + 1).
Proof.
  intros Y. destruct (Rle_dec 0 y) as [P|P].
  - rewrite (Rabs_pos_eq y) in * by assumption. pose proof (ln_series n y ltac:(lra)) as [A C]. apply Rabs_le. lra.
  - apply Rnot_le_lt in P. rewrite (Rabs_left y) in * by assumption. pose proof (ln_series n (- y) ltac:(lra)) as [A C]. rewrite ser_opp, ln_ratio_opp in A, C by lra. apply Rabs_le. lra.
Qed.
Lemma ln_ratio_lipschitz y t : Rabs y <= 1 / 4 -> Rabs t <= 1 / 4 -> y <= t -> Rabs (ln ((1 + t) / (1 - t)) - ln ((1 + y) / (1 - y))) <= 4 * (t - y).
Proof.
  intros Y T L. apply Rabs_le_inv in Y. apply Rabs_le_inv in T.
  assert (P : forall z, -1/4 <= z <= 1/4 -> 0 < (1 + z) / (1 - z)) by (intros z Q; apply Rmult_lt_0_compat; [lra|apply Rinv_0_lt_compat; lra]).
  set (q := 2 * (t - y) * / ((1 - t) * (1 + y))).
  assert (IV : 0 < / ((1 - t) * (1 + y)) <= 16 / 9). { split; [apply Rinv_0_lt_compat; nra|]. replace (16 / 9) with (/ (9 / 16)) by field. apply Rinv_le_contravar; nra. }
  assert (Q0 : 0 <= q <= 4 * (t - y)). { unfold q. split; [apply Rmult_le_pos; lra|]. apply Rle_trans with (2 * (t - y) * (16 / 9)); [apply Rmult_le_compat_l|]; lra. }
  assert (E : ln ((1 + t) / (1 - t)) = ln (1 + q) + ln ((1 + y) / (1 - y))).
  { rewrite <- ln_mult; [|lra|apply P; lra]. f_equal. unfold q. field. repeat split; lra. }
  rewrite E. replace (ln (1 + q) + ln ((1 + y) / (1 - y)) - ln ((1 + y) / (1 - y))) with (ln (1 + q)) by ring.
  assert (0 <= ln (1 + q)). { rewrite <- ln_1. apply ln_le; lra. }
  assert (ln (1 + q) <= q). { pose proof (exp_ineq1_le q) as X. rewrite <- (ln_exp q) at 2. apply ln_le; lra. }
  rewrite Rabs_pos_eq; lra.
Qed.
Lemma pow_small y : 0 <= y <= 21 / 100 -> 9 / 4 * y ^ (2 * 28 + 1) <= / 2 * pw (Z.opp 120).
Proof.
  intros Y. apply Rle_trans with (9 / 4 * (21 / 100) ^ (2 * 28 + 1)). { apply Rmult_le_compat_l; [lra|]. apply pow_incr. exact Y. }
  rewrite bpow_opp, pw_Z by lia. change (2 * 28 + 1)%nat with 57%nat. change (2 ^ 120)%Z with 1329227995784915872903807060280344576%Z. lra.
Qed.
Definition UNIT : R := pw (Z.opp 120).
Lemma unit_small : 0 < UNIT <= / 10 ^ 36.
Proof. unfold UNIT. split; [apply bpow_gt_0|]. rewrite bpow_opp, pw_Z by lia. change (2 ^ 120)%Z with 1329227995784915872903807060280344576%Z. lra. Qed.
Lemma two_atanh_error a b : (0 < b)%Z -> Rabs (IZR a / IZR b) <= 1 / 5 ->
  Rabs (IZR (two_atanh a b) * UNIT - ln ((1 + IZR a / IZR b) / (1 - IZR a / IZR b))) <= 10 * UNIT.
Proof.
  intros HB HT. pose proof unit_small as US. set (t := IZR a / IZR b) in *. unfold two_atanh. cbv zeta.
  assert (PP : pw 120 * UNIT = 1) by (unfold UNIT; rewrite <- bpow_plus; reflexivity).
  assert (P0 : 0 < pw 120) by apply bpow_gt_0.
  assert (YB : t - UNIT <= IZR (Z.shiftl a 120 / b) * UNIT <= t).
  { pose proof (div_le (Z.shiftl a 120) b HB) as [A C]. rewrite Z.shiftl_mul_pow2, mult_IZR, <- pw_Z in A, C by lia. rewrite Z.shiftl_mul_pow2 by lia. set (z := IZR (a * 2 ^ 120 / b)) in *.
    replace (IZR a * pw 120 / IZR b) with (t * pw 120) in A, C by (unfold t, Rdiv; ring).
    assert (z * UNIT <= t * (pw 120 * UNIT)) by nra. assert (t * (pw 120 * UNIT) <= z * UNIT + UNIT) by nra. rewrite PP in *. lra. }
  set (yz := (Z.shiftl a 120 / b)%Z) in *. set (y := IZR yz * UNIT) in *.
  assert (YA : Rabs y <= 21 / 100). { apply Rabs_le_inv in HT. apply Rabs_le. lra. }
  pose proof (shiftr_bounds (yz * yz) 120) as X. rewrite mult_IZR in X. fold UNIT in X. set (xz := Z.shiftr (yz * yz) 120) in *. set (x := IZR xz * UNIT).
  assert (XB : y * y - UNIT <= x <= y * y). { unfold x. assert (IZR yz * IZR yz * UNIT * UNIT = y * y) by (unfold y; ring). nra. }
  assert (YY : 0 <= y * y <= 1 / 20). { apply Rabs_le_inv in YA. nra. }
  assert (XA : Rabs x <= 1 / 20) by (apply Rabs_le; lra). assert (YYA : Rabs (y * y) <= 1 / 20) by (apply Rabs_le; lra).
  pose proof (horner_error (1 / 20) ltac:(lra) 120 odd_coeffs odds xz odd_coeffs_ok XA) as H. fold UNIT x in H.
  pose proof (poly_lipschitz (1 / 20) ltac:(lra) odds x (y * y) XA YYA odds_le) as LP.
  replace (/ (1 - 1 / 20)) with (20 / 19) in H, LP by field.
  assert (XY : Rabs (x - y * y) <= UNIT) by (apply Rabs_le; lra).
  set (h := IZR (horner 120 odd_coeffs xz)) in *. set (px := poly odds x) in *. set (py := poly odds (y * y)) in *.
  assert (HU : Rabs (h * UNIT - py) <= 4 * UNIT).
  { assert (E : h * UNIT - py = (h - pw 120 * px) * UNIT + (px - py)). { replace ((h - pw 120 * px) * UNIT) with (h * UNIT - px * (pw 120 * UNIT)) by ring. rewrite PP. ring. }
    rewrite E. eapply Rle_trans; [apply Rabs_triang|]. rewrite Rabs_mult, (Rabs_pos_eq UNIT) by lra. assert (Rabs (h - pw 120 * px) * UNIT <= 2 * (20 / 19) * UNIT) by (apply Rmult_le_compat_r; lra).
    assert (Rabs (x - y * y) * (20 / 19 * (20 / 19)) <= UNIT * (20 / 19 * (20 / 19))) by (apply Rmult_le_compat_r; lra). lra. }
  pose proof (shiftr_bounds (yz * horner 120 odd_coeffs xz) 120) as SB. rewrite mult_IZR in SB. fold UNIT h in SB. set (sz := Z.shiftr (yz * horner 120 odd_coeffs xz) 120) in *.
  rewrite mult_IZR. set (v := IZR sz) in *.
  assert (SV : Rabs (v * UNIT - y * (h * UNIT)) <= UNIT). { assert (E : y * (h * UNIT) = IZR yz * h * UNIT * UNIT) by (unfold y; ring). rewrite E. apply Rabs_le. nra. }
  pose proof (ser_poly y 28) as SP. fold odds py in SP. pose proof (ln_series_abs 28 y ltac:(lra)) as LS. rewrite SP in LS.
  pose proof (pow_small (Rabs y) (conj (Rabs_pos y) YA)) as PS. fold UNIT in PS.
  pose proof (ln_ratio_lipschitz y t ltac:(lra) ltac:(lra) ltac:(lra)) as LL. assert (TY : 4 * (t - y) <= 4 * UNIT) by lra.
  set (lt := ln ((1 + t) / (1 - t))) in *. set (ly := ln ((1 + y) / (1 - y))) in *.
  assert (YH : Rabs (y * (h * UNIT - py)) <= 21 / 100 * (4 * UNIT)) by (rewrite Rabs_mult; apply Rmult_le_compat; auto using Rabs_pos).
  apply Rabs_le_inv in SV. apply Rabs_le_inv in YH. assert (LS' : Rabs (ly - 2 * y * py) <= / 2 * UNIT) by lra. assert (LL' : Rabs (lt - ly) <= 4 * UNIT) by lra. apply Rabs_le_inv in LS'. apply Rabs_le_inv in LL'.
  apply Rabs_le. replace (y * (h * UNIT - py)) with (y * (h * UNIT) - y * py) in YH by ring. change (IZR 2) with 2. lra.
Qed.
Lemma LN2_def : LN2 = (two_atanh 1 7 + two_atanh 1 5)%Z.
Proof. vm_compute. reflexivity. Qed.
Lemma LN2_error : Rabs (IZR LN2 * UNIT - ln 2) <= 20 * UNIT.
Proof.
  pose proof (two_atanh_error 1 7 ltac:(lia) ltac:(apply Rabs_le; lra)) as A. pose proof (two_atanh_error 1 5 ltac:(lia) ltac:(apply Rabs_le; lra)) as C.
  replace ((1 + 1 / 7) / (1 - 1 / 7)) with (4 / 3) in A by field. replace ((1 + 1 / 5) / (1 - 1 / 5)) with (3 / 2) in C by field.
  assert (E : ln 2 = ln (4 / 3) + ln (3 / 2)) by (rewrite <- ln_mult by lra; f_equal; lra). rewrite LN2_def, plus_IZR, E. apply Rabs_le_inv in A. apply Rabs_le_inv in C. apply Rabs_le. lra.
Qed.
Lemma log_fixed_form m e : exists d, (0 <= d)%Z /\ (2 * 2 ^ d <= 3 * Zpos m <= 4 * 2 ^ d)%Z /\
  log_fixed m e = (two_atanh (Zpos m - 2 ^ d) (Zpos m + 2 ^ d) + (e + d) * LN2)%Z.
Proof.
  pose proof (Z.log2_spec (Zpos m) ltac:(lia)) as [A C]. pose proof (Z.log2_nonneg (Zpos m)) as D. unfold log_fixed. set (d := Z.log2 (Zpos m)) in *. cbv zeta.
  rewrite Z.pow_succ_r in C by assumption. destruct (Z.leb_spec (3 * Zpos m) (4 * 2 ^ d)) as [L|L].
  - exists d. split; [exact D|]. split; [lia|reflexivity].
  - exists (d + 1)%Z. split; [lia|]. split; [|reflexivity]. rewrite Z.pow_add_r by lia. change (2 ^ 1)%Z with 2%Z. lia.
Qed.
Lemma mantissa_bounds m d : (0 <= d)%Z -> (2 * 2 ^ d <= 3 * Zpos m <= 4 * 2 ^ d)%Z -> 2 / 3 <= IZR (Zpos m) * pw (- d) <= 4 / 3.
Proof.
  intros D [A C]. apply IZR_le in A. apply IZR_le in C. rewrite !mult_IZR, <- pw_Z in A, C by assumption. rewrite bpow_opp. pose proof (bpow_gt_0 radix2 d) as P.
  split; apply Rmult_le_reg_r with (pw d); try assumption; rewrite Rmult_assoc, Rinv_l by lra; lra.
Qed.
Lemma log_fixed_error m e : exists d, (0 <= d)%Z /\ (2 * 2 ^ d <= 3 * Zpos m <= 4 * 2 ^ d)%Z /\
  log_fixed m e = (two_atanh (Zpos m - 2 ^ d) (Zpos m + 2 ^ d) + (e + d) * LN2)%Z /\
  ln (IZR (Zpos m) * pw e) = ln (IZR (Zpos m) * pw (- d)) + IZR (e + d) * ln 2 /\
  Rabs (IZR (log_fixed m e) * UNIT - ln (IZR (Zpos m) * pw e)) <= (10 + 20 * Rabs (IZR (e + d))) * UNIT.
Proof.
  destruct (log_fixed_form m e) as (d & D & B & E). exists d. split; [exact D|]. split; [exact B|]. split; [exact E|].
  pose proof (mantissa_bounds m d D B) as MB. set (g := IZR (Zpos m) * pw (- d)) in *. pose proof (bpow_gt_0 radix2 d) as P. pose proof unit_small as US.
  assert (L : ln (IZR (Zpos m) * pw e) = ln g + IZR (e + d) * ln 2).
  { replace (IZR (Zpos m) * pw e) with (g * pw (e + d)). 2:{ unfold g. rewrite Rmult_assoc, <- bpow_plus. f_equal. f_equal. lia. }
    rewrite ln_mult; [|lra|apply bpow_gt_0]. f_equal. rewrite bpow_exp. change (IZR radix2) with 2. now rewrite ln_exp. }
  split; [exact L|]. rewrite L, E, plus_IZR, mult_IZR.
  assert (PZ : (0 < 2 ^ d)%Z) by (apply Z.pow_pos_nonneg; lia).
  assert (MP : IZR (Zpos m) = g * pw d). { unfold g. rewrite Rmult_assoc, <- bpow_plus. replace (- d + d)%Z with 0%Z by lia. cbn [bpow]. ring. }
  assert (T : IZR (Zpos m - 2 ^ d) / IZR (Zpos m + 2 ^ d) = (g - 1) / (g + 1)). { rewrite minus_IZR, plus_IZR, <- pw_Z, MP by assumption. field. split; nra. }
  pose proof (two_atanh_error (Zpos m - 2 ^ d) (Zpos m + 2 ^ d) ltac:(lia)) as TA. rewrite T in TA.
  assert (G5 : Rabs ((g - 1) / (g + 1)) <= 1 / 5). { apply Rabs_le. split; apply Rmult_le_reg_r with (g + 1); try lra; unfold Rdiv; rewrite Rmult_assoc, Rinv_l by lra; lra. }
  specialize (TA G5). replace ((1 + (g - 1) / (g + 1)) / (1 - (g - 1) / (g + 1))) with g in TA by (field; lra).
  pose proof LN2_error as L2. set (a := IZR (two_atanh _ _)) in *. set (k := IZR (e + d)) in *.
  replace ((a + k * IZR LN2) * UNIT - (ln g + k * ln 2)) with ((a * UNIT - ln g) + k * (IZR LN2 * UNIT - ln 2)) by ring.
  eapply Rle_trans; [apply Rabs_triang|]. rewrite Rabs_mult. assert (Rabs k * Rabs (IZR LN2 * UNIT - ln 2) <= Rabs k * (20 * UNIT)) by (apply Rmult_le_compat_l; auto using Rabs_pos). lra.
Qed.

(** ** The fields of a finite double *)
Lemma fields x s m e : Prim2SF x = S754_finite s m e ->
  (Zpos m < 2 ^ 53)%Z /\ (-1074 <= e <= 971)%Z /\ ((-1074 < e)%Z -> (2 ^ 52 <= Zpos m)%Z) /\ val x = IZR (signed s m) * pw e.
Proof.
  intros E. assert (V : val x = IZR (signed s m) * pw e).
  { unfold val. rewrite <- B2SF_Prim2B in E. destruct (Prim2B x) as [z|z| |s' m' e' H]; try discriminate E. cbn [B2SF] in E. injection E as -> -> ->. cbn [B2R]. unfold F2R. cbn [Fnum Fexp]. destruct s; reflexivity. }
  rewrite <- B2SF_Prim2B in E. destruct (Prim2B x) as [z|z| |s' m' e' H]; try discriminate E. cbn [B2SF] in E. injection E as -> -> ->. clear - H V.
  unfold SpecFloat.bounded, canonical_mantissa in H. apply andb_prop in H. destruct H as [H1 H2]. apply Zeq_bool_eq in H1. apply Zle_bool_imp_le in H2.
  unfold SpecFloat.fexp, SpecFloat.emin, prec, emax in *. rewrite Digits.Zpos_digits2_pos in H1. set (dg := Zdigits radix2 (Zpos m)) in *.
  pose proof (Zdigits_correct radix2 (Zpos m)) as [A C]. fold dg in A, C. change (Z.abs (Zpos m)) with (Zpos m) in A, C. change (radix_val radix2) with 2%Z in A, C.
  assert (D0 : (0 < dg)%Z) by (apply Zdigits_gt_0; discriminate).
  split; [|split; [|split]].
  - eapply Z.lt_le_trans; [exact C|]. apply Z.pow_le_mono_r; lia.
  - lia.
  - intros G. eapply Z.le_trans; [|exact A]. apply Z.pow_le_mono_r; lia.
  - exact V.
Qed.
Lemma ln_far g k : 2 / 3 <= g <= 4 / 3 -> (k <> 0)%Z -> 1 / 4 * Rabs (IZR k) <= Rabs (ln g + IZR k * ln 2).
Proof.
  intros G K. pose proof ln2_bounds as L2.
  assert (U : ln g <= 1 / 3). { pose proof (exp_ineq1_le (1 / 3)). rewrite <- (ln_exp (1 / 3)). apply ln_le; lra. }
  assert (L : - (42 / 100) <= ln g).
  { assert (/ g <= 3 / 2) by (replace (3 / 2) with (/ (2 / 3)) by field; apply Rinv_le_contravar; lra). assert (0 < / g) by (apply Rinv_0_lt_compat; lra).
    assert (ln (3 / 2) <= 42 / 100).
    { assert (E : exp (42 / 100) >= 3 / 2). { replace (42 / 100) with (21 / 100 + 21 / 100) by lra. rewrite exp_plus. assert (Q : 1225 / 1000 <= exp (21 / 100)). { replace (21/100) with (7/100 + (7/100 + 7/100)) by lra. rewrite !exp_plus. pose proof (exp_ineq1_le (7/100)). pose proof (exp_pos (7/100)). assert (107/100 * (107/100) <= exp (7/100) * exp (7/100)) by nra. nra. } nra. }
      rewrite <- (ln_exp (42 / 100)). apply ln_le; lra. }
    assert (ln (/ g) <= ln (3 / 2)) by (apply ln_le; lra). rewrite ln_Rinv in * by lra. lra. }
  assert (KK : IZR k <= -1 \/ 1 <= IZR k) by (destruct (Z_lt_le_dec k 0); [left; apply (IZR_le k (-1)); lia|right; apply (IZR_le 1 k); lia]).
  destruct KK as [H|H].
  - rewrite (Rabs_left (IZR k)) by lra. rewrite Rabs_left; nra.
  - rewrite (Rabs_pos_eq (IZR k)) by lra. rewrite Rabs_pos_eq; nra.
Qed.
Lemma ln_close g d m : (0 <= d <= 53)%Z -> g = IZR (Zpos m) * pw (- d) -> 2 / 3 <= g <= 4 / 3 -> g = 1 \/ pw (- 54) <= Rabs (ln g).
Proof.
  intros D G B. destruct (Z.eq_dec (Zpos m) (2 ^ d)) as [E|E].
  - left. rewrite G, E, <- pw_Z, <- bpow_plus by lia. replace (d + - d)%Z with 0%Z by lia. reflexivity.
  - right. assert (S : pw (- 53) <= Rabs (g - 1)).
    { assert (Q : g - 1 = IZR (Zpos m - 2 ^ d) * pw (- d)). { rewrite minus_IZR, <- pw_Z by lia. rewrite Rmult_minus_distr_r, <- G, <- bpow_plus. replace (d + - d)%Z with 0%Z by lia. reflexivity. }
      rewrite Q, Rabs_mult, (Rabs_pos_eq (pw (- d))) by apply bpow_ge_0. rewrite <- abs_IZR. assert (1 <= IZR (Z.abs (Zpos m - 2 ^ d))) by (apply (IZR_le 1); lia).
      pose proof (bpow_gt_0 radix2 (- d)). assert (pw (- 53) <= pw (- d)) by (apply bpow_le; lia). nra. }
    assert (H : pw (- 53) = 2 * pw (- 54)). { change (-53)%Z with (1 + -54)%Z. rewrite bpow_plus. reflexivity. }
    pose proof (bpow_gt_0 radix2 (- 54)) as P. rewrite H in S. set (z := pw (- 54)) in *. clearbody z.
    destruct (Rle_dec 1 g) as [L|L].
    + rewrite Rabs_pos_eq in S by lra. assert (X : (g - 1) / 2 <= ln g).
      { pose proof (ln1p_bounds (g - 1) ltac:(lra)) as [Y _]. replace (1 + (g - 1)) with g in Y by ring. set (y := g - 1) in *. assert (0 <= y <= 1 / 3) by (unfold y; lra). nra. }
      rewrite Rabs_pos_eq; lra.
    + rewrite Rabs_left in S by lra. assert (X : ln g <= g - 1). { pose proof (exp_ineq1_le (g - 1)). rewrite <- (ln_exp (g - 1)). apply ln_le; lra. } rewrite Rabs_left by lra. lra.
Qed.
Lemma ln_bound m e : (Zpos m < 2 ^ 53)%Z -> (-1074 <= e <= 971)%Z -> Rabs (ln (IZR (Zpos m) * pw e)) <= 1100.
Proof.
  intros M E. pose proof ln2_bounds as L2. assert (B1 : 1 <= IZR (Zpos m) <= pw 53). { split; [apply (IZR_le 1); lia|]. rewrite pw_Z by lia. apply IZR_le. lia. }
  pose proof (bpow_gt_0 radix2 e) as P. assert (LP : forall k, ln (pw k) = IZR k * ln 2) by (intros k; rewrite bpow_exp; change (IZR radix2) with 2; apply ln_exp).
  rewrite ln_mult by lra. rewrite LP. assert (0 <= ln (IZR (Zpos m)) <= 53 * ln 2). { rewrite <- (LP 53%Z). split; [rewrite <- ln_1; apply ln_le; lra|apply ln_le; lra]. }
  assert (-1074 <= IZR e <= 971) by (split; apply IZR_le; lia). apply Rabs_le. nra.
Qed.
Lemma big_1000 : 10 ^ 10 <= big / 2.
Proof. pose proof big_ge. lra. Qed.
Lemma log_fixed_case m e : (Zpos m < 2 ^ 53)%Z -> let l := ln (IZR (Zpos m) * pw e) in
  (log_fixed m e = 0%Z /\ l = 0) \/ (5 / 10 ^ 17 <= Rabs l /\ Rabs (IZR (log_fixed m e) * UNIT - l) <= 3 / 10 ^ 19 * Rabs l).
Proof.
  intros M. destruct (log_fixed_error m e) as (d & D & B & LF & L & ER). pose proof (mantissa_bounds m d D B) as MB. pose proof unit_small as US. cbv zeta.
  set (l := ln (IZR (Zpos m) * pw e)) in *.
  assert (D53 : (d <= 53)%Z). { destruct (Z_le_gt_dec d 53); [assumption|exfalso]. assert (2 ^ 54 <= 2 ^ d)%Z by (apply Z.pow_le_mono_r; lia). change (2 ^ 54)%Z with 18014398509481984%Z in *. change (2 ^ 53)%Z with 9007199254740992%Z in *. lia. }
  assert (P54 : 5 / 10 ^ 17 <= pw (- 54)). { change (pw (-54)) with (/ 18014398509481984). lra. }
  destruct (Z.eq_dec (e + d) 0) as [K|K].
  - rewrite K in L, ER. rewrite Rabs_R0 in ER. replace (ln (IZR (Zpos m) * pw (- d)) + 0 * ln 2) with (ln (IZR (Zpos m) * pw (- d))) in L by ring.
    destruct (ln_close _ d m (conj D D53) eq_refl MB) as [G|G].
    + left. assert (M2 : (Zpos m = 2 ^ d)%Z). { apply eq_IZR. rewrite <- pw_Z by assumption. assert (Q : IZR (Zpos m) * (pw (- d) * pw d) = pw d) by (rewrite <- Rmult_assoc, G; ring). rewrite <- bpow_plus in Q. replace (- d + d)%Z with 0%Z in Q by lia. change (pw 0) with 1 in Q. lra. }
      split; [|rewrite L, G, ln_1; reflexivity]. rewrite LF, K, M2, Z.sub_diag. unfold two_atanh. rewrite Z.shiftl_0_l, Z.div_0_l by (assert (0 < 2 ^ d)%Z by (apply Z.pow_pos_nonneg; lia); lia). rewrite Z.mul_0_l, Z.shiftr_0_l. reflexivity.
    + right. rewrite <- L in G. split; lra.
  - right. pose proof (ln_far _ _ MB K) as F. rewrite <- L in F. assert (1 <= Rabs (IZR (e + d))) by (rewrite <- abs_IZR; apply (IZR_le 1); lia). set (k := Rabs (IZR (e + d))) in *. assert ((10 + 20 * k) * UNIT <= 30 * k * / 10 ^ 36) by nra. split; lra.
Qed.
Lemma log_fixed_near m e : (Zpos m < 2 ^ 53)%Z -> let l := ln (IZR (Zpos m) * pw e) in Rabs (IZR (log_fixed m e) * UNIT - l) <= 3 / 10 ^ 19 * Rabs l.
Proof.
  intros M. cbv zeta. destruct (log_fixed_case m e M) as [[E1 E2]|[_ E]]; [|exact E]. rewrite E1, E2. replace (0 * UNIT - 0) with 0 by ring. rewrite Rabs_R0. lra.
Qed.
(** the fields of a positive double *)
Lemma positive_fields x : fin x -> 0 < val x -> exists m e, Prim2SF x = S754_finite false m e /\ (Zpos m < 2 ^ 53)%Z /\ (-1074 <= e <= 971)%Z /\ val x = IZR (Zpos m) * pw e.
Proof.
  intros FX PX. destruct (SF_fin x FX) as [(s & E)|(s & m & e & E)].
  { rewrite val_SF, E in PX. cbn [SFR] in PX. lra. }
  destruct (fields x s m e E) as (M & EB & _ & V). destruct s.
  { exfalso. rewrite V in PX. cbn [signed] in PX. pose proof (bpow_gt_0 radix2 e). assert (IZR (Zneg m) <= -1) by (apply (IZR_le _ (-1)); lia). nra. }
  exists m, e. split; [exact E|]. split; [exact M|]. split; [exact EB|exact V].
Qed.
Lemma z_log_accurate : log_accurate z_libm.
Proof.
  intros x FX PX. cbn [lm_log z_libm]. unfold z_log. destruct (positive_fields x FX PX) as (m & e & E & M & EB & V). rewrite E, V.
  pose proof (log_fixed_near m e M) as NEAR. cbv zeta in NEAR. pose proof (ln_bound m e M EB) as LB. pose proof big_1000 as BG. set (l := ln (IZR (Zpos m) * pw e)) in *.
  destruct (out_near (log_fixed m e) (-120) l (3 / 10 ^ 19)) as [F N]; [lra|lra|exact NEAR|]. split; [exact F|]. eapply Rle_trans; [exact N|]. apply Rplus_le_compat_r. apply Rmult_le_compat_r; [apply Rabs_pos|]. unfold u. lra.
Qed.

(** ** exp *)
Fixpoint tay (n : nat) (r : R) : R := match n with O => 0 | S m => tay m r + r ^ m / INR (fact m) end.
Lemma tay_derive n r : derivable_pt_lim (tay (S n)) r (tay n r).
Proof.
  induction n as [|n IH].
  - apply (derivable_pt_lim_ext (fct_cte 1)); [intros x; unfold fct_cte; cbn; lra|]. apply derivable_pt_lim_const.
  - change (tay (S n) r) with (tay n r + r ^ n / INR (fact n)). apply (derivable_pt_lim_ext (plus_fct (tay (S n)) (fun x => x ^ S n / INR (fact (S n))))); [intros x; reflexivity|].
    apply derivable_pt_lim_plus; [exact IH|]. pose proof (INR_fact_lt_0 n) as F. pose proof (lt_0_INR (S n) ltac:(lia)) as I.
    replace (r ^ n / INR (fact n)) with (/ INR (fact (S n)) * (INR (S n) * r ^ Nat.pred (S n))). 2:{ cbn [Nat.pred]. rewrite fact_simpl, mult_INR. field. split; lra. }
    apply (derivable_pt_lim_ext (mult_real_fct (/ INR (fact (S n))) (fun x => x ^ S n))); [intros x; unfold mult_real_fct, Rdiv; ring|]. apply derivable_pt_lim_scal. apply derivable_pt_lim_pow.
Qed.
Lemma tay_0 n : tay (S n) 0 = 1.
Proof. induction n as [|n IH]; [cbn; lra|]. change (tay (S (S n)) 0) with (tay (S n) 0 + 0 ^ S n / INR (fact (S n))). rewrite IH, pow_i by lia. unfold Rdiv. ring. Qed.
Lemma exp_taylor n : forall r, 0 <= r <= 1 -> 0 <= exp r - tay n r <= 3 * (r ^ n / INR (fact n)).
Proof.
  induction n as [|n IH]; intros r [R0 R1].
  - cbn [tay pow fact]. change (INR 1) with 1. pose proof (exp_pos r). assert (exp r <= exp 1) by (destruct R1 as [R1| ->]; [left; now apply exp_increasing|lra]). pose proof exp_le_3. lra.
  - destruct R0 as [R0| <-]. 2:{ rewrite tay_0, exp_0, pow_i by lia. unfold Rdiv. lra. }
    set (f := fun x => exp x - tay (S n) x). destruct (MVT_cor2 f (fun x => exp x - tay n x) 0 r R0) as (c & EC & C).
    { intros c _. apply derivable_pt_lim_minus; [apply derivable_pt_lim_exp|apply tay_derive]. }
    unfold f in EC. rewrite tay_0, exp_0, Rminus_eq_0, !Rminus_0_r in EC. pose proof (IH c ltac:(lra)) as [A B]. rewrite EC. split; [apply Rmult_le_pos; lra|].
    (* integrate the bound as well *)
    set (g := fun x => 3 * (x ^ S n / INR (fact (S n))) - (exp x - tay (S n) x)).
    destruct (MVT_cor2 g (fun x => 3 * (x ^ n / INR (fact n)) - (exp x - tay n x)) 0 r R0) as (c' & EG & C').
    { intros x _. unfold g. apply derivable_pt_lim_minus; [|apply derivable_pt_lim_minus; [apply derivable_pt_lim_exp|apply tay_derive]].
      pose proof (INR_fact_lt_0 n) as F. pose proof (lt_0_INR (S n) ltac:(lia)) as I.
      replace (3 * (x ^ n / INR (fact n))) with (3 * / INR (fact (S n)) * (INR (S n) * x ^ Nat.pred (S n))). 2:{ cbn [Nat.pred]. rewrite fact_simpl, mult_INR. field. split; lra. }
      apply (derivable_pt_lim_ext (mult_real_fct (3 * / INR (fact (S n))) (fun x => x ^ S n))); [intros z; unfold mult_real_fct, Rdiv; ring|]. apply derivable_pt_lim_scal. apply derivable_pt_lim_pow. }
    unfold g in EG. rewrite tay_0, exp_0, Rminus_eq_0 in EG. pose proof (IH c' ltac:(lra)) as [_ B'].
    assert (Z0 : 3 * (0 ^ S n / INR (fact (S n))) = 0) by (rewrite pow_i by lia; unfold Rdiv; ring). rewrite Z0, !Rminus_0_r in EG.
    assert (0 <= (3 * (c' ^ n / INR (fact n)) - (exp c' - tay n c')) * r) by (apply Rmult_le_pos; lra). rewrite EC in EG. lra.
Qed.
Fixpoint zfact (n : nat) : Z := match n with O => 1 | S m => Z.of_nat n * zfact m end%Z.
Lemma zfact_INR n : IZR (zfact n) = INR (fact n).
Proof. induction n as [|n IH]; [reflexivity|]. cbn [zfact]. rewrite mult_IZR, IH, fact_simpl, mult_INR, <- INR_IZR_INZ. reflexivity. Qed.
Lemma zfact_pos n : (0 < zfact n)%Z.
Proof. apply lt_IZR. rewrite zfact_INR. apply INR_fact_lt_0. Qed.
Definition invfacts : list R := map (fun i => / INR (fact i)) (seq 0 20).
Lemma exp_coeffs_map : exp_coeffs = map (fun i => (2 ^ 66 / zfact i)%Z) (seq 0 20).
Proof. vm_compute. reflexivity. Qed.
Lemma exp_coeffs_ok : Forall2 (fun c q => Rabs (IZR c - pw 66 * q) <= 1) exp_coeffs invfacts.
Proof.
  rewrite exp_coeffs_map. unfold invfacts. generalize (seq 0 20) as l. induction l as [|i l IH]; [constructor|]. cbn [map]. constructor; [|exact IH].
  rewrite pw_Z by lia. rewrite <- zfact_INR. apply div_near, zfact_pos.
Qed.
Lemma tay_poly r : forall n, tay n r = poly (map (fun i => / INR (fact i)) (seq 0 n)) r.
Proof.
  assert (SH : forall n k, poly (map (fun i => / INR (fact i)) (seq k (S n))) r = poly (map (fun i => / INR (fact i)) (seq k n)) r + r ^ n * / INR (fact (k + n))).
  { induction n as [|n IH]; intros k; [cbn [seq map poly pow]; rewrite Nat.add_0_r; ring|].
    change (seq k (S (S n))) with (k :: seq (S k) (S n)). change (seq k (S n)) with (k :: seq (S k) n). cbn [map poly]. rewrite IH. replace (S k + n)%nat with (k + S n)%nat by lia. cbn [pow]. ring. }
  induction n as [|n IH]; [reflexivity|]. rewrite SH, <- IH. cbn [tay plus]. reflexivity.
Qed.
Lemma taylor_20 r : 0 <= r <= 7 / 10 -> Rabs (poly invfacts r - exp r) <= / 10 ^ 20.
Proof.
  intros Q. unfold invfacts. rewrite <- tay_poly. pose proof (exp_taylor 20 r ltac:(lra)) as [A B].
  assert (K : 3 * (r ^ 20 / INR (fact 20)) <= / 10 ^ 20).
  { rewrite <- zfact_INR. replace (zfact 20) with 2432902008176640000%Z by (vm_compute; reflexivity). assert (r ^ 20 <= (7 / 10) ^ 20) by (apply pow_incr; lra). assert (0 <= r ^ 20) by (apply pow_le; lra). unfold Rdiv in *. lra. }
  apply Rabs_le. lra.
Qed.
Definition U80 : R := pw (Z.opp 80).
Definition U66 : R := pw (Z.opp 66).
Lemma U80_val : U80 = / 1208925819614629174706176. Proof. reflexivity. Qed.
Lemma U66_val : U66 = / 73786976294838206464. Proof. reflexivity. Qed.
Lemma LN2_80_error : Rabs (IZR LN2_80 * U80 - ln 2) <= 2 * U80.
Proof.
  assert (E : LN2_80 = (LN2 / 2 ^ 40)%Z) by (vm_compute; reflexivity). pose proof (div_near LN2 (2 ^ 40) ltac:(lia)) as D. rewrite <- E in D. pose proof LN2_error as L. pose proof unit_small as US.
  assert (UU : UNIT = / IZR (2 ^ 40) * U80). { unfold UNIT, U80. rewrite <- pw_Z, <- bpow_opp, <- bpow_plus by lia. reflexivity. }
  assert (P : 0 < U80) by apply bpow_gt_0. assert (US2 : 20 * UNIT <= U80). { rewrite U80_val. lra. }
  rewrite UU in L at 1. replace (IZR LN2 * (/ IZR (2 ^ 40) * U80)) with (IZR LN2 * / IZR (2 ^ 40) * U80) in L by ring. set (a := IZR LN2 * / IZR (2 ^ 40)) in *.
  apply Rabs_le_inv in D. apply Rabs_le_inv in L. apply Rabs_le. nra.
Qed.
Lemma exp_near d : Rabs d <= 1 / 2 -> Rabs (exp d - 1) <= 2 * Rabs d.
Proof.
  intros D. apply Rabs_le_inv in D. pose proof (exp_ineq1_le d) as A. pose proof (exp_ineq1_le (- d)) as C. rewrite exp_Ropp in C. pose proof (exp_pos d) as P.
  assert (exp d * (1 - d) <= 1). { apply Rmult_le_reg_r with (/ exp d); [now apply Rinv_0_lt_compat|]. replace (exp d * (1 - d) * / exp d) with (1 - d) by (field; lra). lra. }
  destruct (Rle_dec 0 d) as [Q|Q].
  - rewrite (Rabs_pos_eq d) by assumption. apply Rabs_le. split; [lra|]. assert (exp d <= 2). { apply Rmult_le_reg_r with (1 - d); [lra|]. lra. } nra.
  - rewrite (Rabs_left d) by lra. apply Rabs_le. split; [lra|]. assert (exp d <= 1). { rewrite <- exp_0. left. apply exp_increasing. lra. } lra.
Qed.
Lemma exp_fixed_error x : Rabs (IZR x * U80) <= 1100 -> let (n, k) := exp_fixed x in
  Rabs (IZR n * pw (k - 66) - exp (IZR x * U80)) <= / 10 ^ 18 * exp (IZR x * U80).
Proof.
  intros X. unfold exp_fixed. cbv zeta. pose proof LN2_80_error as LE. pose proof ln2_bounds as L2. assert (A80 : 0 < U80 <= / 10 ^ 24) by (rewrite U80_val; lra). assert (A66 : 0 < U66 <= 136 / 10 ^ 22) by (rewrite U66_val; lra).
  assert (LP : (0 < LN2_80)%Z) by (vm_compute; reflexivity).
  pose proof (Z.mod_pos_bound x LN2_80 LP) as MB. pose proof (Z.div_mod x LN2_80 ltac:(lia)) as DM. set (k := (x / LN2_80)%Z) in *. replace (x mod LN2_80)%Z with (x - k * LN2_80)%Z in MB by lia.
  set (r := (x - k * LN2_80)%Z) in *. pose proof (shiftr_bounds r 14) as SB. assert (S0 : (0 <= Z.shiftr r 14)%Z) by (apply Z.shiftr_nonneg; lia). set (s := Z.shiftr r 14) in *.
  set (b := IZR s * U66). assert (P66 : U66 = pw 14 * U80) by (unfold U66, U80; rewrite <- bpow_plus; reflexivity). assert (PP : pw (Z.opp 14) * pw 14 = 1) by (rewrite <- bpow_plus; reflexivity).
  assert (RB : IZR r * U80 - U66 <= b <= IZR r * U80).
  { assert (Q : IZR r * U80 = IZR r * pw (Z.opp 14) * U66). { rewrite P66. replace (IZR r * pw (Z.opp 14) * (pw 14 * U80)) with (IZR r * (pw (Z.opp 14) * pw 14) * U80) by ring. rewrite PP. ring. }
    rewrite Q. unfold b. assert (0 < U66) by lra. nra. }
  assert (R0 : 0 <= IZR r * U80 <= IZR LN2_80 * U80). { assert (0 < U80) by lra. assert (0 <= IZR r <= IZR LN2_80) by (split; apply IZR_le; lia). split; [apply Rmult_le_pos; lra|apply Rmult_le_compat_r; lra]. }
  assert (B0 : 0 <= b). { unfold b. apply Rmult_le_pos; [apply (IZR_le 0); lia|lra]. }
  apply Rabs_le_inv in LE. assert (B7 : b <= 7 / 10) by lra.
  pose proof (horner_error (7 / 10) ltac:(lra) 66 exp_coeffs invfacts s exp_coeffs_ok) as HE. change (pw (- (66))) with U66 in HE. fold b in HE. specialize (HE ltac:(apply Rabs_le; lra)).
  replace (2 * / (1 - 7 / 10)) with (20 / 3) in HE by field. set (n := horner 66 exp_coeffs s) in *. pose proof (taylor_20 b (conj B0 B7)) as TY.
  assert (P1 : pw 66 * U66 = 1) by (unfold U66; rewrite <- bpow_plus; reflexivity).
  assert (NB : Rabs (IZR n * U66 - exp b) <= 12 / 10 ^ 20).
  { assert (Q : IZR n * U66 - exp b = (IZR n - pw 66 * poly invfacts b) * U66 + (poly invfacts b - exp b)). { replace ((IZR n - pw 66 * poly invfacts b) * U66) with (IZR n * U66 - poly invfacts b * (pw 66 * U66)) by ring. rewrite P1. ring. }
    rewrite Q. eapply Rle_trans; [apply Rabs_triang|]. rewrite Rabs_mult, (Rabs_pos_eq U66) by lra. assert (Rabs (IZR n - pw 66 * poly invfacts b) * U66 <= 20 / 3 * U66) by (apply Rmult_le_compat_r; [lra|exact HE]). lra. }
  set (y := IZR x * U80) in *. set (d := y - b - IZR k * ln 2).
  assert (YE : y = IZR r * U80 + IZR k * (IZR LN2_80 * U80)). { unfold y, r. rewrite minus_IZR, mult_IZR. ring. }
  set (lh := IZR LN2_80 * U80) in *. assert (LH : 69 / 100 <= lh <= 70 / 100) by lra.
  assert (KB : Rabs (IZR k) <= 1600). { apply Rabs_le_inv in X. apply Rabs_le. split; nra. }
  assert (DB : Rabs d <= 2 / 10 ^ 20).
  { replace d with ((IZR r * U80 - b) + IZR k * (lh - ln 2)) by (unfold d; rewrite YE; ring). eapply Rle_trans; [apply Rabs_triang|]. rewrite Rabs_mult.
    assert (Rabs (IZR k) * Rabs (lh - ln 2) <= 1600 * (2 * U80)) by (apply Rmult_le_compat; auto using Rabs_pos; apply Rabs_le; lra). assert (Rabs (IZR r * U80 - b) <= U66) by (apply Rabs_le; lra). lra. }
  assert (EY : exp y = pw k * (exp b * exp d)). { rewrite bpow_exp. change (IZR radix2) with 2. rewrite <- !exp_plus. f_equal. unfold d. ring. }
  pose proof (exp_near d ltac:(lra)) as ED. pose proof (exp_pos b) as EP. assert (E1 : 1 <= exp b) by (pose proof (exp_ineq1_le b); lra).
  pose proof (bpow_gt_0 radix2 k) as PK. replace (k - 66)%Z with (k + Z.opp 66)%Z by lia. rewrite bpow_plus. fold U66. rewrite EY.
  replace (IZR n * (pw k * U66) - pw k * (exp b * exp d)) with (pw k * ((IZR n * U66 - exp b) + exp b * (1 - exp d))) by ring. rewrite Rabs_mult, (Rabs_pos_eq (pw k)) by lra.
  replace (/ 10 ^ 18 * (pw k * (exp b * exp d))) with (pw k * (/ 10 ^ 18 * (exp b * exp d))) by ring. apply Rmult_le_compat_l; [lra|].
  eapply Rle_trans; [apply Rabs_triang|]. rewrite Rabs_mult, (Rabs_pos_eq (exp b)), (Rabs_minus_sym 1) by lra. assert (Q1 : exp b * Rabs (exp d - 1) <= exp b * (4 / 10 ^ 20)) by (apply Rmult_le_compat_l; lra).
  assert (Q2 : exp b * (1 / 2) <= exp b * exp d). { apply Rmult_le_compat_l; [lra|]. apply Rabs_le_inv in ED. lra. } lra.
Qed.
Lemma z_exp_accurate : exp_accurate z_libm.
Proof.
  intros x FX BX. cbn [lm_exp z_libm]. unfold z_exp. pose proof u_pos as UP. destruct (SF_fin x FX) as [(s & E)|(s & m & e & E)]; rewrite E.
  { rewrite (val_SF x), E. cbn [SFR]. split; [apply fin_SF; vm_compute; exact I|]. replace (val one) with 1 by (rewrite val_SF; vm_compute Prim2SF; cbn [SFR Z.leb Z.compare Z.opp Z.pow Z.pow_pos Pos.iter Z.mul Pos.mul]; lra). rewrite exp_0, Rminus_eq_0, Rabs_R0. lra. }
  destruct (fields x s m e E) as (M & EB & NM & V). 
  assert (E42 : (e <= -42)%Z).
  { destruct (Z_le_gt_dec e (-42)); [assumption|exfalso]. specialize (NM ltac:(lia)). assert (A : pw 11 <= Rabs (val x)).
    { rewrite V, Rabs_mult, (Rabs_pos_eq (pw e)) by apply bpow_ge_0. change (pw 11) with (pw (52 + -41)). rewrite bpow_plus. apply Rmult_le_compat; try apply bpow_ge_0; [|apply bpow_le; lia].
      rewrite pw_Z, <- abs_IZR by lia. apply IZR_le. destruct s; cbn [signed Z.abs]; lia. }
    change (pw 11) with 2048 in A. assert (Rabs (val x) <= 700) by (apply Rabs_le; lra). lra. }
  destruct (Z.ltb_spec (-42) e) as [?|_]; [lia|]. unfold scaled. pose proof (shiftl_bounds (signed s m) (e + 80)) as SB. set (z := Z.shiftl (signed s m) (e + 80)) in *.
  assert (ZB : Rabs (IZR z * U80 - val x) <= U80).
  { rewrite bpow_plus in SB. assert (PP : pw 80 * U80 = 1) by (unfold U80; rewrite <- bpow_plus; reflexivity). assert (0 < U80) by apply bpow_gt_0.
    replace (IZR (signed s m) * (pw e * pw 80)) with (val x * pw 80) in SB by (rewrite V; ring). assert (val x * pw 80 * U80 = val x) by (rewrite Rmult_assoc, PP; ring). apply Rabs_le. nra. }
  assert (A80 : 0 < U80 <= / 10 ^ 24) by (rewrite U80_val; lra). assert (ZA : Rabs (IZR z * U80) <= 701). { apply Rabs_le_inv in ZB. apply Rabs_le. lra. }
  pose proof (exp_fixed_error z ltac:(lra)) as EF. destruct (exp_fixed z) as [n k]. set (y := IZR z * U80) in *.
  assert (YX : Rabs (exp y - exp (val x)) <= / 10 ^ 20 * exp (val x)).
  { replace (exp y) with (exp (val x) * exp (y - val x)) by (rewrite <- exp_plus; f_equal; ring). replace (exp (val x) * exp (y - val x) - exp (val x)) with (exp (val x) * (exp (y - val x) - 1)) by ring.
    rewrite Rabs_mult, (Rabs_pos_eq (exp _)) by (left; apply exp_pos). rewrite Rmult_comm. apply Rmult_le_compat_r; [left; apply exp_pos|]. eapply Rle_trans; [apply exp_near|]; lra. }
  pose proof (exp_pos (val x)) as EP. assert (NR : Rabs (IZR n * pw (k - 66) - exp (val x)) <= / 10 ^ 17 * Rabs (exp (val x))).
  { rewrite (Rabs_pos_eq (exp (val x))) by lra. replace (IZR n * pw (k - 66) - exp (val x)) with ((IZR n * pw (k - 66) - exp y) + (exp y - exp (val x))) by ring. eapply Rle_trans; [apply Rabs_triang|]. apply Rabs_le_inv in YX. apply Rabs_le in YX.
    assert (exp y <= 2 * exp (val x)) by (apply Rabs_le_inv in YX; lra). lra. }
  pose proof ln2_bounds as L2.
  assert (EB1 : exp (val x) <= big / 2). { unfold big. replace (pw 1023) with (2 * pw 1022) by (symmetry; exact (bpow_plus radix2 1 1022)). replace (2 * pw 1022 / 2) with (pw 1022) by field. rewrite bpow_exp. change (IZR radix2) with 2. apply exp_le. lra. }
  assert (EB2 : small * pw 12 <= exp (val x)). { unfold small. rewrite <- bpow_plus. rewrite bpow_exp. change (IZR radix2) with 2. apply exp_le. change (-1022 + 12)%Z with (-1010)%Z. lra. }
  destruct (out_near n (k - 66) (exp (val x)) (/ 10 ^ 17)) as [F N]; [rewrite Rabs_pos_eq by lra; exact EB1|lra|exact NR|]. split; [exact F|]. rewrite (Rabs_pos_eq (exp (val x))) in N by lra.
  assert (TS : tiny <= u * exp (val x)).
  { assert (tiny = u * small). { unfold tiny, small. rewrite <- u_bpow. change (-1075)%Z with (-1 + ((-53 + 1) + -1022))%Z. rewrite !bpow_plus. change (pw (-1)) with (/ 2). ring. }
    rewrite H. apply Rmult_le_compat_l; [lra|]. pose proof small_pos. change (pw 12) with 4096 in EB2. lra. }
  eapply Rle_trans; [exact N|]. assert (U17 : / 10 ^ 17 <= u) by (unfold u; lra). set (v := exp (val x)) in *. assert (/ 10 ^ 17 * v <= u * v) by (apply Rmult_le_compat_r; lra). assert (u * (1 + / 10 ^ 17) * v <= 2 * u * v) by (apply Rmult_le_compat_r; [lra|]; lra). lra.
Qed.
Theorem z_accurate : accurate z_libm.
Proof. split; [exact z_exp_accurate|exact z_log_accurate]. Qed.

(** ** The other functions *)
Definition log10_accurate (lm : Libm) : Prop := forall x, fin x -> 0 < val x ->
  fin (lm_log10 lm x) /\ Rabs (val (lm_log10 lm x) - ln (val x) / ln 10) <= 4 * (2 * u) * Rabs (ln (val x) / ln 10) + tiny.
Definition log1p_accurate (lm : Libm) : Prop := forall x, fin x -> -1 < val x ->
  fin (lm_log1p lm x) /\ Rabs (val (lm_log1p lm x) - ln (1 + val x)) <= 4 * (2 * u) * Rabs (ln (1 + val x)) + tiny.
Definition pow_accurate (lm : Libm) : Prop := forall x y, fin x -> fin y -> 0 < val x -> Rabs (val y * ln (val x)) <= 700 ->
  fin (lm_pow lm x y) /\ Rabs (val (lm_pow lm x y) - Rpower (val x) (val y)) <= 4 * (2 * u) * Rpower (val x) (val y).
Lemma LN10_error : Rabs (IZR LN10 * UNIT - ln 10) <= 3 / 10 ^ 19 * ln 10.
Proof.
  assert (E : LN10 = log_fixed 10 0) by (vm_compute; reflexivity). pose proof (log_fixed_near 10 0 ltac:(lia)) as H. cbv zeta in H. rewrite <- E in H. change (pw 0) with 1 in H. rewrite Rmult_1_r in H.
  assert (0 < ln 10) by (rewrite <- ln_1; apply ln_increasing; lra). rewrite (Rabs_pos_eq (ln 10)) in H by lra. exact H.
Qed.
Lemma ln10_big : 2 <= ln 10.
Proof. assert (E : exp 2 <= 10). { replace 2 with (1 + 1) by ring. rewrite exp_plus. pose proof exp_le_3. pose proof (exp_pos 1). nra. } rewrite <- (ln_exp 2). apply ln_le; [apply exp_pos|exact E]. Qed.
Lemma z_log10_accurate : log10_accurate z_libm.
Proof.
  intros x FX PX. cbn [lm_log10 z_libm]. unfold z_log10. destruct (positive_fields x FX PX) as (m & e & E & M & EB & V). rewrite E, V.
  pose proof (log_fixed_near m e M) as NEAR. cbv zeta in NEAR. pose proof (ln_bound m e M EB) as LB. pose proof big_1000 as BG. set (l := ln (IZR (Zpos m) * pw e)) in *.
  pose proof LN10_error as TE. pose proof ln10_big as TB. pose proof unit_small as US. set (t := ln 10) in *. set (a := IZR (log_fixed m e) * UNIT) in *. set (b := IZR LN10 * UNIT) in *.
  assert (LP : (0 < LN10)%Z) by (vm_compute; reflexivity). pose proof (div_near (log_fixed m e * 2 ^ 120) LN10 LP) as DV. rewrite mult_IZR, <- pw_Z in DV by lia.
  assert (PP : pw 120 * UNIT = 1) by (unfold UNIT; rewrite <- bpow_plus; reflexivity). assert (P0 : 0 < pw 120) by apply bpow_gt_0.
  apply Rabs_le_inv in TE. assert (BT : t / 2 <= b <= 2 * t) by lra. set (q := (log_fixed m e * 2 ^ 120 / LN10)%Z) in *.
  assert (QB : Rabs (IZR q * UNIT - a / b) <= UNIT).
  { assert (N0 : IZR LN10 <> 0) by (apply not_0_IZR; lia). assert (QE : a / b = IZR (log_fixed m e) * pw 120 * / IZR LN10 * UNIT). { unfold a, b. replace (pw 120) with (/ UNIT) by (field_simplify_eq; lra). field. split; lra. }
    rewrite QE. replace (IZR q * UNIT - IZR (log_fixed m e) * pw 120 * / IZR LN10 * UNIT) with ((IZR q - IZR (log_fixed m e) * pw 120 * / IZR LN10) * UNIT) by ring. rewrite Rabs_mult, (Rabs_pos_eq UNIT) by lra. rewrite <- (Rmult_1_l UNIT) at 2. apply Rmult_le_compat_r; [lra|exact DV]. }
  assert (AB : Rabs (a / b - l / t) <= 8 / 10 ^ 19 * Rabs (l / t)).
  { assert (QT : Rabs (l / t) = Rabs l * / t) by (unfold Rdiv; rewrite Rabs_mult, (Rabs_pos_eq (/ t)) by (left; apply Rinv_0_lt_compat; lra); reflexivity).
    replace (a / b - l / t) with ((a - l) * / b + l / t * ((t - b) * / b)) by (field; lra). eapply Rle_trans; [apply Rabs_triang|]. rewrite Rabs_mult, (Rabs_mult (l / t)), (Rabs_mult (t - b)), QT, (Rabs_pos_eq (/ b)) by (left; apply Rinv_0_lt_compat; lra).
    assert (IB : / b <= / t * (1 + 1 / 1000)). { apply Rmult_le_reg_l with (b * t); [nra|]. replace (b * t * / b) with t by (field; lra). replace (b * t * (/ t * (1 + 1 / 1000))) with (b * (1 + 1 / 1000)) by (field; lra). lra. }
    assert (T1 : Rabs (t - b) * / b <= 4 / 10 ^ 19). { assert (Rabs (t - b) <= 3 / 10 ^ 19 * t) by (apply Rabs_le; lra). assert (0 < / b) by (apply Rinv_0_lt_compat; lra). assert (Q : Rabs (t - b) * / b <= 3 / 10 ^ 19 * t * (/ t * (1 + 1 / 1000))) by (apply Rmult_le_compat; auto using Rabs_pos; lra). replace (3 / 10 ^ 19 * t * (/ t * (1 + 1 / 1000))) with (3 / 10 ^ 19 * (1 + 1 / 1000)) in Q by (field; lra). lra. }
    assert (T2 : Rabs (a - l) * / b <= 4 / 10 ^ 19 * (Rabs l * / t)). { assert (0 < / b) by (apply Rinv_0_lt_compat; lra). assert (0 < / t) by (apply Rinv_0_lt_compat; lra). pose proof (Rabs_pos l).
      assert (Q : Rabs (a - l) * / b <= 3 / 10 ^ 19 * Rabs l * (/ t * (1 + 1 / 1000))) by (apply Rmult_le_compat; auto using Rabs_pos; lra). assert (0 <= Rabs l * / t) by (apply Rmult_le_pos; lra). lra. }
    assert (T3 : Rabs l * / t * (Rabs (t - b) * / b) <= Rabs l * / t * (4 / 10 ^ 19)) by (apply Rmult_le_compat_l; [rewrite <- QT; apply Rabs_pos|exact T1]). lra. }
  assert (FIN : Rabs (IZR q * UNIT - l / t) <= / 10 ^ 17 * Rabs (l / t)).
  { destruct (log_fixed_case m e M) as [[E1 E2]|[E1 _]].
    - fold l in E2. unfold q. rewrite E1, E2, Z.mul_0_l, Z.div_0_l by lia. unfold Rdiv. rewrite !Rmult_0_l, Rminus_0_r, Rabs_R0. lra.
    - fold l in E1. assert (T3 : t <= 10 - 1). { pose proof (exp_ineq1_le (10 - 1)). unfold t. rewrite <- (ln_exp (10 - 1)). apply ln_le; lra. }
      assert (L1 : / 10 ^ 18 <= Rabs (l / t)). { unfold Rdiv. rewrite Rabs_mult, (Rabs_pos_eq (/ t)) by (left; apply Rinv_0_lt_compat; lra). apply Rmult_le_reg_r with t; [lra|]. rewrite Rmult_assoc, Rinv_l by lra. lra. }
      replace (IZR q * UNIT - l / t) with ((IZR q * UNIT - a / b) + (a / b - l / t)) by ring. eapply Rle_trans; [apply Rabs_triang|]. lra. }
  assert (LT : Rabs (l / t) <= big / 2). { unfold Rdiv at 1. rewrite Rabs_mult, (Rabs_pos_eq (/ t)) by (left; apply Rinv_0_lt_compat; lra). apply Rle_trans with (Rabs l * 1); [|lra]. apply Rmult_le_compat_l; [apply Rabs_pos|]. rewrite <- Rinv_1. apply Rinv_le; lra. }
  destruct (out_near q (-120) (l / t) (/ 10 ^ 17)) as [F N]; [exact LT|lra|exact FIN|]. split; [exact F|]. eapply Rle_trans; [exact N|]. apply Rplus_le_compat_r. apply Rmult_le_compat_r; [apply Rabs_pos|]. unfold u. lra.
Qed.

Lemma exp_out z v del : Rabs v <= 700 -> 0 <= del <= / 10 ^ 15 -> Rabs (IZR z * U80 - v) <= del -> let (n, k) := exp_fixed z in
  fin (out n (k - 66)) /\ Rabs (val (out n (k - 66)) - exp v) <= (5 / 2 * del + 3 * u) * exp v.
Proof.
  intros VB DB ZB. pose proof u_pos as UP. assert (ZA : Rabs (IZR z * U80) <= 701). { apply Rabs_le_inv in ZB. apply Rabs_le_inv in VB. apply Rabs_le. lra. }
  pose proof (exp_fixed_error z ltac:(lra)) as EF. destruct (exp_fixed z) as [n k]. set (y := IZR z * U80) in *.
  assert (YX : Rabs (exp y - exp v) <= 2 * del * exp v).
  { replace (exp y) with (exp v * exp (y - v)) by (rewrite <- exp_plus; f_equal; ring). replace (exp v * exp (y - v) - exp v) with (exp v * (exp (y - v) - 1)) by ring.
    rewrite Rabs_mult, (Rabs_pos_eq (exp _)) by (left; apply exp_pos). rewrite Rmult_comm. apply Rmult_le_compat_r; [left; apply exp_pos|]. eapply Rle_trans; [apply exp_near|]; lra. }
  pose proof (exp_pos v) as EP. set (eps := 2 * del + 2 / 10 ^ 18).
  assert (NR : Rabs (IZR n * pw (k - 66) - exp v) <= eps * Rabs (exp v)).
  { rewrite (Rabs_pos_eq (exp v)) by lra. replace (IZR n * pw (k - 66) - exp v) with ((IZR n * pw (k - 66) - exp y) + (exp y - exp v)) by ring. eapply Rle_trans; [apply Rabs_triang|].
    assert (exp y <= 2 * exp v) by (apply Rabs_le_inv in YX; assert (2 * del * exp v <= 1 * exp v) by (apply Rmult_le_compat_r; lra); lra). unfold eps. lra. }
  pose proof ln2_bounds as L2. apply Rabs_le_inv in VB.
  assert (EB1 : exp v <= big / 2). { unfold big. replace (pw 1023) with (2 * pw 1022) by (symmetry; exact (bpow_plus radix2 1 1022)). replace (2 * pw 1022 / 2) with (pw 1022) by field. rewrite bpow_exp. change (IZR radix2) with 2. apply exp_le. lra. }
  assert (EB2 : small * pw 12 <= exp v). { unfold small. rewrite <- bpow_plus. rewrite bpow_exp. change (IZR radix2) with 2. apply exp_le. change (-1022 + 12)%Z with (-1010)%Z. lra. }
  destruct (out_near n (k - 66) (exp v) eps) as [F N]; [rewrite Rabs_pos_eq by lra; exact EB1|unfold eps; lra|exact NR|]. split; [exact F|]. rewrite (Rabs_pos_eq (exp v)) in N by lra.
  assert (TS : tiny <= / 2 * u * exp v).
  { assert (H : tiny = u * small). { unfold tiny, small. rewrite <- u_bpow. change (-1075)%Z with (-1 + ((-53 + 1) + -1022))%Z. rewrite !bpow_plus. change (pw (-1)) with (/ 2). ring. }
    rewrite H. pose proof small_pos. change (pw 12) with 4096 in EB2. nra. }
  eapply Rle_trans; [exact N|]. assert (U17 : / 10 ^ 17 <= u) by (unfold u; lra). assert (U16 : u <= 2 / 10 ^ 16) by (unfold u; lra). assert (EE : eps + u * (1 + eps) <= 5 / 2 * del + 3 * u - / 2 * u) by (unfold eps; nra).
  assert (Q : (eps + u * (1 + eps)) * exp v <= (5 / 2 * del + 3 * u - / 2 * u) * exp v) by (apply Rmult_le_compat_r; lra). lra.
Qed.
Lemma z_pow_accurate : pow_accurate z_libm.
Proof.
  intros x y FX FY PX B. cbn [lm_pow z_libm]. unfold z_pow. destruct (positive_fields x FX PX) as (m & e & E & M & EB & V). rewrite E. pose proof u_pos as UP.
  destruct (SF_fin y FY) as [(s & EY)|(s & my & ey & EY)]; rewrite EY.
  { rewrite (val_SF y), EY. cbn [SFR]. split; [apply fin_SF; vm_compute; exact I|]. replace (val one) with 1 by (rewrite val_SF; vm_compute Prim2SF; cbn [SFR Z.leb Z.compare Z.opp Z.pow Z.pow_pos Pos.iter Z.mul Pos.mul]; lra). rewrite Rpower_O, Rminus_eq_0, Rabs_R0 by assumption. lra. }
  destruct (fields y s my ey EY) as (_ & _ & _ & VY). unfold Rpower. rewrite V in *. pose proof (log_fixed_near m e M) as NEAR. cbv zeta in NEAR. set (l := ln (IZR (Zpos m) * pw e)) in *. set (a := IZR (log_fixed m e) * UNIT) in *.
  unfold scaled. pose proof (shiftl_bounds (log_fixed m e * signed s my) (ey - 40)) as SB. set (z := Z.shiftl (log_fixed m e * signed s my) (ey - 40)) in *.
  assert (A80 : 0 < U80 <= / 10 ^ 24) by (rewrite U80_val; lra).
  assert (ZA : Rabs (IZR z * U80 - a * val y) <= U80).
  { assert (Q : IZR (log_fixed m e * signed s my) * pw (ey - 40) * U80 = a * val y). { rewrite VY. unfold a, UNIT, U80. rewrite mult_IZR. replace (ey - 40)%Z with (ey + -40)%Z by lia. rewrite bpow_plus. change (pw (Z.opp 120)) with (pw (-40 + Z.opp 80)). rewrite (bpow_plus _ (-40)). ring. }
    rewrite <- Q. apply Rabs_le. nra. }
  assert (AY : Rabs (a * val y - val y * l) <= 21 / 10 ^ 17). { replace (a * val y - val y * l) with ((a - l) * val y) by ring. rewrite Rabs_mult. rewrite Rabs_mult in B. pose proof (Rabs_pos (val y)). assert (Rabs (a - l) * Rabs (val y) <= 3 / 10 ^ 19 * Rabs l * Rabs (val y)) by (apply Rmult_le_compat_r; lra). lra. }
  assert (ZV : Rabs (IZR z * U80 - val y * l) <= 211 / 10 ^ 18). { replace (IZR z * U80 - val y * l) with ((IZR z * U80 - a * val y) + (a * val y - val y * l)) by ring. eapply Rle_trans; [apply Rabs_triang|]. lra. }
  assert (ZS : (Z.abs z < 2 ^ 90)%Z).
  { apply lt_IZR. rewrite abs_IZR, <- pw_Z by lia. assert (P : pw 90 * U80 = 1024) by (unfold U80; rewrite <- bpow_plus; reflexivity). apply Rmult_lt_reg_r with U80; [lra|]. rewrite P. rewrite <- (Rabs_pos_eq U80) by lra. rewrite <- Rabs_mult. apply Rabs_le_inv in ZV. apply Rabs_le_inv in B. apply Rabs_lt. lra. }
  destruct (Z.ltb_spec (Z.abs z) (2 ^ 90)) as [_|?]; [|lia]. pose proof (exp_out z (val y * l) (211 / 10 ^ 18) B ltac:(lra) ZV) as EO. destruct (exp_fixed z) as [n k]. destruct EO as [F N]. split; [exact F|]. eapply Rle_trans; [exact N|]. apply Rmult_le_compat_r; [left; apply exp_pos|]. unfold u. lra.
Qed.

(** |ln g| >= |g - 1| / 2 near 1 *)
Lemma ln_half g : 2 / 3 <= g <= 4 / 3 -> Rabs (g - 1) / 2 <= Rabs (ln g).
Proof.
  intros B. destruct (Rle_dec 1 g) as [L|L].
  - rewrite (Rabs_pos_eq (g - 1)) by lra. assert (X : (g - 1) / 2 <= ln g).
    { pose proof (ln1p_bounds (g - 1) ltac:(lra)) as [Y _]. replace (1 + (g - 1)) with g in Y by ring. set (y := g - 1) in *. assert (0 <= y <= 1 / 3) by (unfold y; lra). nra. }
    rewrite Rabs_pos_eq; lra.
  - rewrite (Rabs_left (g - 1)) by lra. assert (X : ln g <= g - 1). { pose proof (exp_ineq1_le (g - 1)). rewrite <- (ln_exp (g - 1)). apply ln_le; lra. } rewrite Rabs_left by lra. lra.
Qed.
(** log (1 + x) is x for small x *)
Lemma ln1p_small x : Rabs x <= / 2 -> Rabs (x - ln (1 + x)) <= 2 * (Rabs x * Rabs x).
Proof.
  intros B. apply Rabs_le_inv in B. assert (U : ln (1 + x) <= x). { rewrite <- (ln_exp x) at 2. apply ln_le; [lra|]. apply exp_ineq1_le. }
  assert (L : x / (1 + x) <= ln (1 + x)). { assert (Q : - ln (1 + x) <= / (1 + x) - 1). { rewrite <- ln_Rinv by lra. rewrite <- (ln_exp (/ (1 + x) - 1)). apply ln_le; [apply Rinv_0_lt_compat; lra|]. pose proof (exp_ineq1_le (/ (1 + x) - 1)). lra. } replace (x / (1 + x)) with (1 - / (1 + x)) by (field; lra). lra. }
  assert (D : x - x / (1 + x) <= 2 * (x * x)). { replace (x - x / (1 + x)) with (x * x * / (1 + x)) by (field; lra). assert (/ (1 + x) <= 2). { rewrite <- (Rinv_inv 2). apply Rinv_le; lra. } pose proof (Rle_0_sqr x) as Q. unfold Rsqr in Q. nra. }
  rewrite <- Rabs_mult, (Rabs_pos_eq (x * x)) by nra. apply Rabs_le. nra.
Qed.
Lemma shiftl_exact n k : (0 <= k)%Z -> IZR (Z.shiftl n k) = IZR n * pw k.
Proof. intros K. rewrite Z.shiftl_mul_pow2, mult_IZR, pw_Z by assumption. reflexivity. Qed.
Lemma z_log1p_accurate : log1p_accurate z_libm.
Proof.
  intros x FX PX. cbn [lm_log1p z_libm]. unfold z_log1p. pose proof u_pos as UP. pose proof tiny_pos as TP.
  assert (SMALL : Rabs (val x) <= / 10 ^ 18 -> fin x /\ Rabs (val x - ln (1 + val x)) <= 4 * (2 * u) * Rabs (ln (1 + val x)) + tiny).
  { intros B. split; [exact FX|]. pose proof (ln1p_small (val x) ltac:(lra)) as S1. pose proof (ln_half (1 + val x)) as S2. apply Rabs_le_inv in B. specialize (S2 ltac:(lra)). replace (1 + val x - 1) with (val x) in S2 by ring. apply Rabs_le in B. pose proof (Rabs_pos (val x)).
    assert (2 * (Rabs (val x) * Rabs (val x)) <= 2 / 10 ^ 18 * Rabs (val x)) by nra. assert (10 / 10 ^ 18 <= u) by (unfold u; lra). set (l := Rabs (ln (1 + val x))) in *. assert (10 / 10 ^ 18 * l <= u * l) by (apply Rmult_le_compat_r; [apply Rabs_pos|lra]). lra. }
  destruct (SF_fin x FX) as [(s & E)|(s & m & e & E)]; rewrite E.
  { apply SMALL. rewrite val_SF, E. cbn [SFR]. rewrite Rabs_R0. lra. }
  destruct (fields x s m e E) as (M & EB & NM & V).
  assert (F60 : fin 0x1p-60%float) by (apply fin_SF; vm_compute; exact I). assert (V60 : val 0x1p-60%float = pw (-60)).
  { rewrite val_SF. vm_compute Prim2SF. cbn [SFR]. unfold F2R. cbn. lra. }
  destruct (abs_val x FX) as [FA VA]. destruct (ltb_val (abs x) 0x1p-60%float FA F60) as [LT|LT]; rewrite VA, V60 in LT; change (pw (-60)) with (/ 1152921504606846976) in LT.
  { apply SMALL. lra. }
  apply Rnot_lt_le in LT.
  assert (E120 : (0 <= e + 120)%Z).
  { destruct (Z_le_gt_dec 0 (e + 120)); [assumption|exfalso]. rewrite V, Rabs_mult, (Rabs_pos_eq (pw e)) in LT by apply bpow_ge_0. assert (A : Rabs (IZR (signed s m)) <= pw 53). { rewrite <- abs_IZR, pw_Z by lia. apply IZR_le. destruct s; cbn [signed Z.abs]; lia. }
    assert (B : pw e <= pw (-120)) by (apply bpow_le; lia). assert (C : Rabs (IZR (signed s m)) * pw e <= pw 53 * pw (-120)) by (apply Rmult_le_compat; auto using Rabs_pos, bpow_ge_0). rewrite <- bpow_plus in C. change (pw (53 + -120)) with (/ 147573952589676412928) in C. lra. }
  assert (QV : IZR (scaled (signed s m) (e + 120) + 2 ^ 120) * UNIT = 1 + val x).
  { unfold scaled. rewrite plus_IZR, shiftl_exact, V, <- pw_Z, (bpow_plus radix2 e 120) by (assumption || lia). assert (PP : pw 120 * UNIT = 1) by (unfold UNIT; rewrite <- bpow_plus; reflexivity).
    replace ((IZR (signed s m) * (pw e * pw 120) + pw 120) * UNIT) with (IZR (signed s m) * pw e * (pw 120 * UNIT) + pw 120 * UNIT) by ring. rewrite PP. ring. }
  pose proof unit_small as US. set (q := (scaled (signed s m) (e + 120) + 2 ^ 120)%Z) in *.
  destruct q as [|q|q]; [rewrite Rmult_0_l in QV; lra| |assert (IZR (Zneg q) <= -1) by (apply (IZR_le _ (-1)); lia); nra].
  destruct (log_fixed_error q (-120)) as (d & D & B & LF & L & ER). pose proof (mantissa_bounds q d D B) as MB. change (pw (-120)) with UNIT in L, ER. rewrite QV in L, ER.
  set (l := ln (1 + val x)) in *. 
  assert (NEAR : Rabs (IZR (log_fixed q (-120)) * UNIT - l) <= 3 / 10 ^ 17 * Rabs l).
  { destruct (Z.eq_dec (-120 + d) 0) as [K|K].
    - rewrite K in ER. rewrite Rabs_R0 in ER. assert (d = 120%Z) by lia. subst d. change (pw (- (120))) with UNIT in MB. rewrite QV in MB. pose proof (ln_half _ MB) as H. replace (1 + val x - 1) with (val x) in H by ring. fold l in H. lra.
    - pose proof (ln_far _ _ MB K) as F. rewrite <- L in F. assert (1 <= Rabs (IZR (-120 + d))) by (rewrite <- abs_IZR; apply (IZR_le 1); lia). set (k := Rabs (IZR (-120 + d))) in *. assert ((10 + 20 * k) * UNIT <= 30 * k * / 10 ^ 36) by nra. lra. }
  assert (LB : Rabs l <= 1100).
  { pose proof ln2_bounds as L2. assert (Q1 : 1 <= IZR (Zpos q)) by (apply (IZR_le 1); lia). assert (UL : ln UNIT = -120 * ln 2). { unfold UNIT. rewrite bpow_exp, ln_exp, opp_IZR. change (IZR radix2) with 2. ring. }
    assert (LO : ln UNIT <= l). { apply ln_le; [lra|]. rewrite <- QV. nra. }
    assert (HI : l <= ln (pw 1025)). { apply ln_le; [lra|]. assert (val x <= pw 1024). { rewrite V. change (pw 1024) with (pw (53 + 971)). rewrite bpow_plus. apply Rle_trans with (pw 53 * pw e); [apply Rmult_le_compat_r; [apply bpow_ge_0|]|apply Rmult_le_compat_l; [apply bpow_ge_0|apply bpow_le; lia]]. rewrite pw_Z by lia. apply IZR_le. destruct s; cbn [signed]; lia. } change (pw 1025) with (pw (1 + 1024)). rewrite bpow_plus. change (pw 1) with 2. assert (1 <= pw 1024) by (change 1 with (pw 0); apply bpow_le; lia). lra. }
    rewrite bpow_exp, ln_exp in HI. change (IZR radix2) with 2 in HI. apply Rabs_le. lra. }
  pose proof big_1000 as BG. destruct (out_near (log_fixed q (-120)) (-120) l (3 / 10 ^ 17)) as [F N]; [lra|lra|exact NEAR|]. split; [exact F|]. eapply Rle_trans; [exact N|]. apply Rplus_le_compat_r. apply Rmult_le_compat_r; [apply Rabs_pos|]. unfold u. lra.
Qed.
