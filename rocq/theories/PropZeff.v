(** * C40: effective charges *)
From Coq Require Import ZArith Reals List Bool Lra Lia.
From Verif Require Import Num NumR Structures Calculations PropKin PropSrim.
Import ListNotations.
Local Open Scope R_scope.

(** the velocity that z_effective computes from the energy is that of the kinematics functions *)
Lemma zeff_beta p : (let gamma := lit 1.0 + pT p / atomic_mass_unit in fsqrt (lit 1.0 - lit 1.0 / (gamma * gamma)) : R)%num = beta_from_T (pT p).
Proof. reflexivity. Qed.

Lemma fsi_pos : 0 < fine_structure_inverted (F:=R).
Proof. unfold fine_structure_inverted, fine_structure. numR. dec_norm. lra. Qed.

(** ** No model: the charge state of the projectile *)
Theorem C40_none p t c : c_zeff c = z_none -> z_effective (F:=R) p t c = pQ p.
Proof. intros E. unfold z_effective. rewrite E. reflexivity. Qed.
Print Assumptions C40_none.

(** z (1 - A exp(-k s)): below z, and increasing in s *)
Lemma saturate z A k s : 0 < z -> 0 < A -> z * (1 - A * exp (- k * s)) < z.
Proof. intros. pose proof (exp_pos (- k * s)). assert (0 < z * (A * exp (- k * s))) by (repeat apply Rmult_lt_0_compat; assumption). lra. Qed.
Lemma saturate_incr z A k s t : 0 < z -> 0 < A -> 0 < k -> s < t -> z * (1 - A * exp (- k * s)) < z * (1 - A * exp (- k * t)).
Proof.
  intros Z A0 K L. apply Rmult_lt_compat_l; [exact Z|]. assert (exp (- k * t) < exp (- k * s)) by (apply exp_increasing; nra).
  assert (A * exp (- k * t) < A * exp (- k * s)) by (apply Rmult_lt_compat_l; assumption). lra.
Qed.

(** ** Pierce-Blann *)
Lemma pb_form z b : z_eff_Pierce_Blann (F:=R) z b = z * (1 - 1 * exp (- (95 / 100 * fine_structure_inverted / Rpow_c z (2 / 3)) * b)).
Proof.
  unfold z_eff_Pierce_Blann. numR. replace (Rlit 1.0) with 1 by (dec_norm; lra). replace (Rlit 2.0 / Rlit 3.0) with (2 / 3) by (dec_norm; lra).
  f_equal. f_equal. rewrite Rmult_1_l. f_equal. dec_norm. unfold Rdiv. ring.
Qed.
Lemma pb_k z : 0 < z -> 0 < 95 / 100 * fine_structure_inverted (F:=R) / Rpow_c z (2 / 3).
Proof. intros Z. apply pos_quot; [apply Rmult_lt_0_compat; [lra|apply fsi_pos]|apply Rpow_pos_gt0; exact Z]. Qed.

Theorem C40_pierce_blann A Z Q t c : c_zeff c = z_pierce_blann -> 0 < Z ->
  (forall T, 0 <= T -> 0 <= z_effective (F:=R) (mkProj A Z Q T) t c < Z) /\
  (forall T1 T2, 0 <= T1 -> T1 < T2 -> z_effective (F:=R) (mkProj A Z Q T1) t c < z_effective (F:=R) (mkProj A Z Q T2) t c).
Proof.
  intros E Z0. assert (F : forall T, z_effective (F:=R) (mkProj A Z Q T) t c = z_eff_Pierce_Blann Z (beta_from_T T)).
  { intros T. unfold z_effective. rewrite E. reflexivity. }
  destruct C36_beta as (B1 & B2 & B3 & _).
  assert (M : forall b1 b2, b1 < b2 -> z_eff_Pierce_Blann (F:=R) Z b1 < z_eff_Pierce_Blann Z b2).
  { intros b1 b2 L. rewrite !pb_form. apply saturate_incr; [exact Z0|lra|now apply pb_k|exact L]. }
  split.
  - intros T T0. rewrite F. split.
    + replace 0 with (z_eff_Pierce_Blann (F:=R) Z 0) at 1 by (rewrite pb_form, Rmult_0_r, exp_0; ring).
      destruct (proj1 (B1 T T0)) as [L|<-]; [left; apply M; exact L|right; reflexivity].
    + rewrite pb_form. apply saturate; [exact Z0|lra].
  - intros T1 T2 H1 H2. rewrite !F. apply M. apply B3; assumption.
Qed.
Print Assumptions C40_pierce_blann.

(** ** Anthony-Landford: below Z and increasing, but negative at low velocity *)
Definition al_A (tz : R) : R := 116 / 100 - tz * (191 / 100000 - 126 / 10000000 * tz).
Definition al_B (tz : R) : R := 118 / 100 - tz * (75 / 10000 - 453 / 10000000 * tz).
Lemma al_A_pos tz : 0 < al_A tz. Proof. unfold al_A. nra. Qed.
Lemma al_B_pos tz : 0 < al_B tz. Proof. unfold al_B. nra. Qed.
Lemma al_form z b tz : z_eff_Anthony_Landford (F:=R) z b tz = z * (1 - al_A tz * exp (- (fine_structure_inverted * al_B tz / Rpow_c z (2 / 3)) * b)).
Proof.
  unfold z_eff_Anthony_Landford. cbv zeta. numR. replace (Rlit 1.0) with 1 by (dec_norm; lra). replace (Rlit 2.0 / Rlit 3.0) with (2 / 3) by (dec_norm; lra).
  replace (Rlit 1.16 - tz * (Rlit 1.91e-03 - Rlit 1.26e-05 * tz)) with (al_A tz) by (unfold al_A; dec_norm; lra).
  replace (Rlit 1.18 - tz * (Rlit 7.5e-03 - Rlit 4.53e-05 * tz)) with (al_B tz) by (unfold al_B; dec_norm; lra). do 4 f_equal. unfold Rdiv. ring.
Qed.
Theorem C40_anthony A Z Q t c : c_zeff c = z_anthony_landorf -> 0 < Z ->
  (forall T, z_effective (F:=R) (mkProj A Z Q T) t c < Z) /\
  (forall T1 T2, 0 <= T1 -> T1 < T2 -> z_effective (F:=R) (mkProj A Z Q T1) t c < z_effective (F:=R) (mkProj A Z Q T2) t c).
Proof.
  intros E Z0. assert (F : forall T, z_effective (F:=R) (mkProj A Z Q T) t c = z_eff_Anthony_Landford Z (beta_from_T T) (IZR (tZ t))).
  { intros T. unfold z_effective. rewrite E. reflexivity. }
  destruct C36_beta as (B1 & B2 & B3 & _). split.
  - intros T. rewrite F, al_form. apply saturate; [exact Z0|apply al_A_pos].
  - intros T1 T2 H1 H2. rewrite !F, !al_form. apply saturate_incr; [exact Z0|apply al_A_pos| |now apply B3].
    apply pos_quot; [apply Rmult_lt_0_compat; [apply fsi_pos|apply al_B_pos]|apply Rpow_pos_gt0; exact Z0].
Qed.
Print Assumptions C40_anthony.

Theorem C40_anthony_sign_refuted : exists p t c, c_zeff c = z_anthony_landorf /\ 0 < pZ p /\ (1 <= tZ t)%Z /\ 0 < pT p /\
  z_effective (F:=R) p t c < 0.
Proof.
  (* the velocity of the witness is below 1/10^5 *)
  exists (mkProj 1 1 1 (1 / 10 ^ 10)), (mkTarget 1 1 1), (mkConfig z_anthony_landorf 0 0 0 0 1). cbn [c_zeff pZ pT tZ].
  split; [reflexivity|]. split; [lra|]. split; [lia|]. split; [apply Rdiv_lt_0_compat; lra|].
  change (z_effective _ _ _) with (z_eff_Anthony_Landford (F:=R) 1 (beta_from_T (1 / 10 ^ 10)) (IZR 1)). rewrite al_form.
  assert (B : 0 <= beta_from_T (F:=R) (1 / 10 ^ 10) < 1 / 10 ^ 5).
  { destruct C36_beta as (B1 & _). assert (T0 : 0 <= 1 / 10 ^ 10) by lra. split; [apply B1; exact T0|].
    rewrite beta_R. rewrite <- (sqrt_square (1 / 10 ^ 5)) by lra. apply sqrt_lt_1; [apply beta2_range; exact T0|lra|].
    set (T := 1 / 10 ^ 10) in *. unfold u0. 
    assert (G : 1 <= 1 + T / (9314940954 / 10000000) <= 1 + T / 900).
    { split; [assert (0 <= T / (9314940954 / 10000000)); [|lra]; apply Rmult_le_pos; lra|].
      apply Rplus_le_compat_l. apply Rmult_le_compat_l; [exact T0|]. apply Rinv_le_contravar; lra. }
    set (g := 1 + T / (9314940954 / 10000000)) in *.
    assert (GG : g * g <= 1 + 3 * T / 900) by (assert (T <= 1) by (unfold T; lra); nra).
    assert (GP : 1 <= g * g) by nra.
    assert (IG : 1 - 3 * T / 900 <= 1 / (g * g)).
    { apply Rmult_le_reg_r with (g * g); [lra|]. unfold Rdiv at 2. rewrite Rmult_assoc, Rinv_l, Rmult_1_r by lra.
      assert (0 <= 3 * T / 900 <= 1) by (unfold T; lra). nra. }
    unfold T in *. lra. }
  set (b := beta_from_T _) in *.
  assert (P1 : Rpow_c 1 (2 / 3) = 1) by (rewrite Rpow_pos by lra; unfold Rpower; rewrite ln_1, Rmult_0_r, exp_0; reflexivity). rewrite P1.
  assert (FS : fine_structure_inverted (F:=R) <= 138).
  { unfold fine_structure_inverted, fine_structure. numR. dec_norm. lra. }
  pose proof fsi_pos as F0. pose proof (al_B_pos (IZR 1)) as BP.
  assert (BB : al_B (IZR 1) <= 118 / 100) by (unfold al_B; lra).
  assert (AA : 1158 / 1000 <= al_A (IZR 1)) by (unfold al_A; lra).
  set (y := fine_structure_inverted * al_B (IZR 1) / 1 * b).
  assert (Y : 0 <= y <= 1 / 100).
  { unfold y. assert (0 <= fine_structure_inverted (F:=R) * al_B (IZR 1) / 1 <= 138 * (118 / 100)).
    { unfold Rdiv. rewrite Rinv_1, Rmult_1_r. split; [apply Rmult_le_pos; lra|apply Rmult_le_compat; lra]. }
    split; [apply Rmult_le_pos; lra|]. apply Rle_trans with (138 * (118 / 100) * (1 / 10 ^ 5)); [apply Rmult_le_compat; lra|lra]. }
  replace (- (fine_structure_inverted * al_B (IZR 1) / 1) * b) with (- y) by (unfold y; ring).
  assert (EY : 1 - y <= exp (- y)) by (pose proof (exp_ineq1_le (- y)); lra).
  assert (1 < al_A (IZR 1) * exp (- y)); [|lra].
  apply Rlt_le_trans with (1158 / 1000 * (99 / 100)); [lra|]. apply Rmult_le_compat; lra.
Qed.
Print Assumptions C40_anthony_sign_refuted.

(** ** Hubert: 0 below 2.5 MeV/u; above it below Z and increasing with the energy *)
Theorem C40_hubert A Z Q t c : c_zeff c = z_hubert -> 0 < Z -> (1 <= tZ t)%Z ->
  (forall T, T < 5 / 2 -> z_effective (F:=R) (mkProj A Z Q T) t c = 0) /\
  (forall T, 5 / 2 <= T -> z_effective (F:=R) (mkProj A Z Q T) t c < Z) /\
  (forall T1 T2, 5 / 2 <= T1 -> T1 < T2 -> z_effective (F:=R) (mkProj A Z Q T1) t c < z_effective (F:=R) (mkProj A Z Q T2) t c).
Proof.
  intros E Z0 TZ. set (tz := IZR (tZ t)). assert (TZ1 : 1 <= tz) by (apply IZR_le in TZ; exact TZ).
  assert (F : forall T, z_effective (F:=R) (mkProj A Z Q T) t c = z_eff_Hubert Z T tz).
  { intros T. unfold z_effective. rewrite E. reflexivity. }
  assert (LN : 0 <= ln tz) by (destruct TZ1 as [L|<-]; [left; rewrite <- ln_1; apply ln_increasing; lra|rewrite ln_1; lra]).
  assert (H : exists x1 x2 x3 x4, 0 < x1 /\ 0 < x2 /\ 0 < x3 /\
    forall T, 5 / 2 <= T -> z_eff_Hubert (F:=R) Z T tz = Z * (1 - x1 * exp (- (x2 * Rpow_c Z (- x4)) * Rpow_c T x3))).
  { unfold z_eff_Hubert. cbv zeta. numR.
    assert (NL : forall T, 5 / 2 <= T -> Rltb T (Rlit 2.5) = false) by (intros T HT; apply Rltb_false; dec_norm; lra).
    replace (Rlit 1) with 1 by (dec_norm; lra).
    destruct (Reqb tz (Rlit 4)); [|destruct (Reqb tz (Rlit 6))].
    - exists (Rlit 2.045 + Rlit 2.0 * exp (Rlit (-0.04369) * Z)), (Rlit 7.0), (Rlit 0.2643), (Rlit 0.4171).
      pose proof (exp_pos (Rlit (-0.04369) * Z)). split; [|split; [|split; [|]]]; [dec_norm; lra|dec_norm; lra|dec_norm; lra|].
      intros T HT. rewrite (NL T HT). do 4 f_equal. ring.
    - exists (Rlit 2.584 + Rlit 1.91 * exp (Rlit (-0.03958) * Z)), (Rlit 6.933), (Rlit 0.2433), (Rlit 0.3969).
      pose proof (exp_pos (Rlit (-0.03958) * Z)). split; [|split; [|split; [|]]]; [dec_norm; lra|dec_norm; lra|dec_norm; lra|].
      intros T HT. rewrite (NL T HT). do 4 f_equal. ring.
    - exists (Rlit 1.164 + Rlit 0.2319 * exp (Rlit (-0.004302) * tz) + Rlit 1.658 * exp (Rlit (-0.0517) * Z)),
        (Rlit 8.144 + Rlit 0.09876 * ln tz), (Rlit 0.314 + Rlit 0.01072 * ln tz), (Rlit 0.5218 + Rlit 0.02521 * ln tz).
      pose proof (exp_pos (Rlit (-0.004302) * tz)). pose proof (exp_pos (Rlit (-0.0517) * Z)).
      split; [|split; [|split; [|]]]; [dec_norm; lra|dec_norm; lra|dec_norm; lra|].
      intros T HT. rewrite (NL T HT). do 4 f_equal. ring. }
  destruct H as (x1 & x2 & x3 & x4 & P1 & P2 & P3 & H). split; [|split].
  - intros T HT. rewrite F. unfold z_eff_Hubert. cbv zeta. numR. destruct (Rltb_spec T (Rlit 2.5)) as [_|N]; [dec_norm; lra|]. exfalso. apply N. dec_norm. lra.
  - intros T HT. rewrite F, H by exact HT. apply saturate; assumption.
  - intros T1 T2 H1 H2. rewrite !F, !H by lra. apply saturate_incr; [exact Z0|exact P1|apply Rmult_lt_0_compat; [exact P2|now apply Rpow_pos_gt0]|].
    rewrite !Rpow_pos by lra. apply Rlt_Rpower_l; lra.
Qed.
Print Assumptions C40_hubert.

(** ** Winger: below Z *)
Theorem C40_winger p t c : c_zeff c = z_winger -> 0 < pZ p -> z_effective (F:=R) p t c < pZ p.
Proof.
  intros E Z0. unfold z_effective. rewrite E. change (z_winger =? z_none)%Z with false. cbv iota.
  change (z_winger =? z_pierce_blann)%Z with false. change (z_winger =? z_anthony_landorf)%Z with false.
  change (z_winger =? z_hubert)%Z with false. change (z_winger =? z_winger)%Z with true. cbv zeta iota. unfold z_eff_Winger. cbv zeta. numR.
  match goal with |- _ * (_ - exp ?e) < _ => pose proof (exp_pos e) as X; set (y := exp e) in * end.
  replace (Rlit 1) with 1 by (dec_norm; lra). assert (0 < pZ p * y) by (apply Rmult_lt_0_compat; assumption). lra.
Qed.
Print Assumptions C40_winger.

(** ** The global formula without the external code: Z above 2000 MeV/u, -1 for heavy ions, and
    otherwise Pierce-Blann with the energy in place of the velocity *)
Theorem C40_global A Z Q T t c : c_zeff c = z_global ->
  z_effective (F:=R) (mkProj A Z Q T) t c =
    if Rlt_dec 2000 T then Z else if Rlt_dec T 30 then z_eff_Pierce_Blann Z T
    else if Rlt_dec Z 29 then z_eff_Pierce_Blann Z T else -1.
Proof.
  intros E. unfold z_effective. rewrite E. change (z_eff_global (F:=R) Z T (IZR (tZ t)) = if Rlt_dec 2000 T then Z else if Rlt_dec T 30 then z_eff_Pierce_Blann Z T
    else if Rlt_dec Z 29 then z_eff_Pierce_Blann Z T else -1).
  unfold z_eff_global. numR. destruct (Rltb_spec (Rlit 2000) T) as [A1|A1]; destruct (Rlt_dec 2000 T) as [B1|B1]; try reflexivity;
    try (exfalso; revert A1; dec_norm; lra).
  destruct (Rltb_spec T (Rlit 30.0)) as [A2|A2]; destruct (Rlt_dec T 30) as [B2|B2]; try (exfalso; revert A2; dec_norm; lra); cbn [orb]; [reflexivity|].
  destruct (Rltb_spec Z (Rlit 29)) as [A3|A3]; destruct (Rlt_dec Z 29) as [B3|B3]; try (exfalso; revert A3; dec_norm; lra); [reflexivity|].
  dec_norm. lra.
Qed.
Print Assumptions C40_global.

(** so it differs from Pierce-Blann at the projectile's velocity for every energy of at least 1 MeV/u
    where it uses that formula, and is negative for heavy ions between 30 and 2000 MeV/u *)
Theorem C40_global_refuted : exists p t c c', c_zeff c = z_global /\ c_zeff c' = z_pierce_blann /\ 0 < pT p /\ (1 <= tZ t)%Z /\
  (pT p < 30 /\ z_effective (F:=R) p t c <> z_effective p t c').
Proof.
  exists (mkProj 12 6 6 10), (mkTarget 12 6 1), (mkConfig z_global 0 0 0 0 1), (mkConfig z_pierce_blann 0 0 0 0 1).
  split; [reflexivity|]. split; [reflexivity|]. cbn [pT tZ]. split; [lra|]. split; [lia|]. split; [lra|].
  rewrite C40_global by reflexivity. destruct (Rlt_dec 2000 10); [lra|]. destruct (Rlt_dec 10 30); [|lra].
  change (z_effective _ _ _) with (z_eff_Pierce_Blann (F:=R) 6 (beta_from_T 10)).
  destruct C36_beta as (B1 & _). destruct (B1 10 ltac:(lra)). apply Rgt_not_eq. rewrite !pb_form. apply saturate_incr; [lra|lra|apply pb_k; lra|lra].
Qed.
Print Assumptions C40_global_refuted.
Theorem C40_global_heavy_refuted : exists p t c, c_zeff c = z_global /\ pZ p = 92 /\ pT p = 300 /\ z_effective (F:=R) p t c < 0.
Proof.
  exists (mkProj 238 92 92 300), (mkTarget 12 6 1), (mkConfig z_global 0 0 0 0 1).
  split; [reflexivity|]. split; [reflexivity|]. split; [reflexivity|]. rewrite C40_global by reflexivity.
  destruct (Rlt_dec 2000 300); [lra|]. destruct (Rlt_dec 300 30); [lra|]. destruct (Rlt_dec 92 29); lra.
Qed.
Print Assumptions C40_global_heavy_refuted.

(** ** ATIMA 1.4 without the external code: no charge at all *)
Theorem C40_atima14 p t c : c_zeff c = z_atima14 -> z_effective (F:=R) p t c = 0.
Proof. intros E. unfold z_effective. rewrite E. change (Rlit 0.0 = 0). dec_norm. lra. Qed.
Print Assumptions C40_atima14.

(** ** Schiwietz: positive and below 1.13 Z, but above Z for swift light ions *)
Definition sch_x (pz beta tz : R) : R :=
  (1 - 26 / 100 * exp (- tz / 11) * exp (- (tz - pz) * (tz - pz) / 9)) *
  Rpow_c (Rpow_c pz (- (543 / 1000)) * beta / bohr_velocity / (1 + 3 / 100 * (Rpow_c pz (- (543 / 1000)) * beta / bohr_velocity) * ln tz) / (154 / 100)) (1 + 183 / 100 / pz).
Lemma sch_form pz b tz : z_eff_Schiwietz (F:=R) pz b tz =
  let x := sch_x pz b tz in pz * (829 / 100 * x + x * x * x * x) / (6 / 100 / x + 4 + 74 / 10 * x + x * x * x * x).
Proof.
  unfold z_eff_Schiwietz, sch_x. cbv zeta. numR.
  replace (Rlit (-0.543)) with (- (543 / 1000)) by (dec_norm; lra). replace (Rlit 0.26) with (26 / 100) by (dec_norm; lra).
  replace (Rlit 11.0) with 11 by (dec_norm; lra). replace (Rlit 9) with 9 by (dec_norm; lra). replace (Rlit 1) with 1 by (dec_norm; lra).
  replace (Rlit 0.030) with (3 / 100) by (dec_norm; lra). replace (Rlit 1.54) with (154 / 100) by (dec_norm; lra). replace (Rlit 1.83) with (183 / 100) by (dec_norm; lra).
  replace (Rlit 8.29) with (829 / 100) by (dec_norm; lra). replace (Rlit 0.06) with (6 / 100) by (dec_norm; lra). replace (Rlit 4) with 4 by (dec_norm; lra).
  replace (Rlit 7.4) with (74 / 10) by (dec_norm; lra). reflexivity.
Qed.
Lemma bohr_pos : 0 < bohr_velocity (F:=R) < 1 / 100.
Proof. unfold bohr_velocity, c_light. numR. dec_norm. lra. Qed.
Lemma sch_c1 tz pz : 0 <= tz -> 74 / 100 <= 1 - 26 / 100 * exp (- tz / 11) * exp (- (tz - pz) * (tz - pz) / 9).
Proof.
  intros TZ. assert (E1 : exp (- tz / 11) <= 1) by (rewrite <- exp_0; destruct TZ as [L|<-]; [left; apply exp_increasing; lra|right; f_equal; field]).
  assert (E2 : exp (- (tz - pz) * (tz - pz) / 9) <= 1).
  { rewrite <- exp_0. assert (H : - (tz - pz) * (tz - pz) / 9 <= 0) by (pose proof (Rle_0_sqr (tz - pz)) as Q; unfold Rsqr in Q; set (d := tz - pz) in *; replace (- d * d / 9) with (- (d * d) / 9) by field; lra). destruct H as [L| ->]; [left; apply exp_increasing; exact L|right; reflexivity]. }
  pose proof (exp_pos (- tz / 11)). pose proof (exp_pos (- (tz - pz) * (tz - pz) / 9)).
  assert (exp (- tz / 11) * exp (- (tz - pz) * (tz - pz) / 9) <= 1 * 1) by (apply Rmult_le_compat; lra).
  rewrite Rmult_assoc. lra.
Qed.
Lemma sch_x_pos pz b tz : 0 < pz -> 0 < b -> 1 <= tz -> 0 < sch_x pz b tz.
Proof.
  intros P B T. unfold sch_x. pose proof (sch_c1 tz pz ltac:(lra)). apply Rmult_lt_0_compat; [lra|]. apply Rpow_pos_gt0.
  assert (LN : 0 <= ln tz) by (destruct T as [L|<-]; [left; rewrite <- ln_1; apply ln_increasing; lra|rewrite ln_1; lra]).
  assert (V : 0 < Rpow_c pz (- (543 / 1000)) * b / bohr_velocity).
  { apply pos_quot; [apply Rmult_lt_0_compat; [now apply Rpow_pos_gt0|exact B]|apply bohr_pos]. }
  set (v := Rpow_c pz (- (543 / 1000)) * b / bohr_velocity) in *. assert (0 <= 3 / 100 * v * ln tz) by (apply Rmult_le_pos; lra).
  apply pos_quot; [apply pos_quot|]; lra.
Qed.
Theorem C40_schiwietz p t c : c_zeff c = z_schiwietz -> 0 < pZ p -> 0 < pT p -> (1 <= tZ t)%Z ->
  0 < z_effective (F:=R) p t c < 113 / 100 * pZ p.
Proof.
  intros E Z0 T0 TZ. destruct p as [A Z Q T]. cbn [pZ pT] in *. unfold z_effective. rewrite E.
  change (0 < z_eff_Schiwietz (F:=R) Z (beta_from_T T) (IZR (tZ t)) < 113 / 100 * Z).
  destruct C36_beta as (_ & B2 & _). pose proof (sch_x_pos Z (beta_from_T T) (IZR (tZ t)) Z0 (B2 T T0) ltac:(apply IZR_le in TZ; exact TZ)) as X.
  rewrite sch_form. cbv zeta. set (x := sch_x _ _ _) in *. clearbody x.
  assert (D : 0 < 6 / 100 / x) by (apply pos_quot; lra). assert (X4 : 0 < x * x * x * x) by (repeat apply Rmult_lt_0_compat; exact X).
  assert (DD : 0 < 6 / 100 / x + 4 + 74 / 10 * x + x * x * x * x) by lra. split.
  - apply pos_quot; [apply Rmult_lt_0_compat; lra|exact DD].
  - apply Rmult_lt_reg_r with (6 / 100 / x + 4 + 74 / 10 * x + x * x * x * x); [exact DD|].
    unfold Rdiv at 1. rewrite Rmult_assoc, Rinv_l, Rmult_1_r by lra.
    rewrite (Rmult_comm (113 / 100)), (Rmult_assoc Z). apply Rmult_lt_compat_l; [exact Z0|]. lra.
Qed.
Print Assumptions C40_schiwietz.

Theorem C40_schiwietz_bound_refuted : exists p t c, c_zeff c = z_schiwietz /\ pZ p = 1 /\ pT p = 1000 /\ (1 <= tZ t)%Z /\ pZ p < z_effective (F:=R) p t c.
Proof.
  exists (mkProj 1 1 1 1000), (mkTarget 1 1 1), (mkConfig z_schiwietz 0 0 0 0 1). cbn [c_zeff pZ pT tZ].
  split; [reflexivity|]. split; [reflexivity|]. split; [reflexivity|]. split; [lia|].
  change (1 < z_eff_Schiwietz (F:=R) 1 (beta_from_T 1000) (IZR 1)). rewrite sch_form. cbv zeta.
  assert (B : 1 / 2 <= beta_from_T (F:=R) 1000).
  { rewrite beta_R. rewrite <- (sqrt_square (1 / 2)) by lra. apply sqrt_le_1; [lra|apply beta2_range; lra|].
    assert (G : 2 <= 1 + 1000 / u0) by (unfold u0; lra). set (g := 1 + 1000 / u0) in *.
    assert (GG : 4 <= g * g) by nra. assert (1 / (g * g) <= 1 / 4); [|lra]. unfold Rdiv. rewrite !Rmult_1_l. apply Rinv_le_contravar; lra. }
  assert (X : 20 <= sch_x 1 (beta_from_T 1000) (IZR 1)).
  { unfold sch_x. assert (P1 : Rpow_c 1 (- (543 / 1000)) = 1) by (rewrite Rpow_pos by lra; unfold Rpower; rewrite ln_1, Rmult_0_r, exp_0; reflexivity).
    rewrite P1, ln_1, Rmult_0_r, Rplus_0_r. pose proof (sch_c1 1 1 ltac:(lra)) as C1. destruct bohr_pos as [BV BV2].
    set (b := beta_from_T 1000) in *.
    assert (V : 30 <= 1 * b / bohr_velocity / 1 / (154 / 100)).
    { assert (I : 100 <= / bohr_velocity) by (rewrite <- (Rinv_inv 100); apply Rinv_le_contravar; lra).
      assert (50 <= 1 * b / bohr_velocity); [|lra]. unfold Rdiv. rewrite Rmult_1_l. apply Rle_trans with (1 / 2 * 100); [lra|]. apply Rmult_le_compat; lra. }
    set (v := 1 * b / bohr_velocity / 1 / (154 / 100)) in *.
    assert (PV : 30 <= Rpow_c v (1 + 183 / 100 / 1)).
    { rewrite Rpow_pos by lra. apply Rle_trans with v; [exact V|]. rewrite <- (Rpower_1 v) at 1 by lra. apply Rle_Rpower; lra. }
    apply Rle_trans with (74 / 100 * 30); [lra|]. apply Rmult_le_compat; lra. }
  set (x := sch_x _ _ _) in *. clearbody x.
  assert (D : 0 < 6 / 100 / x <= 1).
  { split; [apply pos_quot; lra|]. apply Rmult_le_reg_r with x; [lra|]. unfold Rdiv. rewrite Rmult_assoc, Rinv_l, Rmult_1_r by lra. lra. }
  assert (X4 : 0 < x * x * x * x) by (repeat apply Rmult_lt_0_compat; lra).
  apply Rmult_lt_reg_r with (6 / 100 / x + 4 + 74 / 10 * x + x * x * x * x); [lra|].
  set (den := 6 / 100 / x + 4 + 74 / 10 * x + x * x * x * x) in *.
  replace (1 * (829 / 100 * x + x * x * x * x) / den * den) with (829 / 100 * x + x * x * x * x) by (field; unfold den; lra). unfold den. lra.
Qed.
Print Assumptions C40_schiwietz_bound_refuted.

(** ** A concrete case: carbon ions, Pierce-Blann, 10 and 100 MeV/u *)
Example C40_case : let c := mkConfig z_pierce_blann 0 0 0 0 1 in let t := mkTarget 12 6 1 in
  0 <= z_effective (F:=R) (mkProj 12 6 6 10) t c /\ z_effective (F:=R) (mkProj 12 6 6 10) t c < z_effective (mkProj 12 6 6 100) t c /\
  z_effective (F:=R) (mkProj 12 6 6 100) t c < 6.
Proof.
  cbv zeta. destruct (C40_pierce_blann 12 6 6 (mkTarget 12 6 1) (mkConfig z_pierce_blann 0 0 0 0 1) eq_refl ltac:(lra)) as [A B].
  split; [apply A; lra|]. split; [apply B; lra|apply A; lra].
Qed.
