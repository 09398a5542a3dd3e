(** * C67: the effective charge in the build with the external charge-state code GLOBAL

    [qm Z Zt E] is the mean charge that GLOBAL gives for a projectile of charge [Z] in a target of charge [Zt] at [E] MeV/u; it may be
    any function. *)
From Coq Require Import ZArith Reals List Bool Lra Lia.
From Verif Require Import Num NumR Structures Calculations GlobalCharge PropKin PropSrim PropZeff PropFormula PropJumpSrim.
Local Open Scope R_scope.

(** ** The two formulas of the model, written from scratch *)

(** the charge of nearly bare ions: Z (1 - exp(-180 beta gamma^0.18 Z^-0.82 Zt^0.1)) *)
Definition bare (Z Zt T : R) : R :=
  Z * (1 - exp (- (180 * velocity T * Rpower (lorentz T) 0.18 * Rpower Zt 0.1 / Rpower Z 0.82))).
(** GLOBAL's charge [q], moved away from the Pierce-Blann charge [pb] by 1.4 (Zt + 1)^-0.28 (1 - exp(-0.04 T)) *)
Definition weight (Zt T : R) : R := 1.4 / Rpower (Zt + 1) 0.28 * (1 - exp (- (0.04 * T))).
Definition moved (pb q Zt T : R) : R := pb + (q - pb) * weight Zt T.
(** the straight mixture of [f] at [a] and [g] at [b] *)
Definition mix (a b f g T : R) : R := ((b - T) * f + (T - a) * g) / (b - a).

Lemma atima_code qm A Z Q T t c : c_zeff c = z_atima14 -> z_effective_G (F:=R) qm (mkProj A Z Q T) t c = z_eff_atima14_G qm Z T (IZR (tZ t)).
Proof. intros E. unfold z_effective_G. rewrite E. reflexivity. Qed.
Lemma winger_code A Z Q T t c : c_zeff c = z_winger -> z_effective (F:=R) (mkProj A Z Q T) t c = z_eff_Winger Z (velocity T) (IZR (tZ t)).
Proof. intros E. unfold z_effective. rewrite E. rewrite <- beta_code. reflexivity. Qed.
Lemma pb_code A Z Q T t c : c_zeff c = z_pierce_blann -> z_effective (F:=R) (mkProj A Z Q T) t c = z_eff_Pierce_Blann Z (velocity T).
Proof. intros E. unfold z_effective. rewrite E. rewrite <- beta_code. reflexivity. Qed.

Lemma lorentz_pos T : 0 <= T -> 0 < lorentz T.
Proof. intros H. rewrite <- gamma_code, gamma_R. pose proof (gamma_ge1 T H). lra. Qed.

Lemma bare_code Z Zt T : 0 < Z -> 0 < Zt -> 0 <= T ->
  Z * (Rlit 1.0 - exp (Rlit (-180.0) * velocity T * Rpow_c (lorentz T) (Rlit 0.18) * Rpow_c Z (Rlit (-0.82)) * Rpow_c Zt (Rlit 0.1))) = bare Z Zt T.
Proof.
  intros HZ HT T0. pose proof (lorentz_pos T T0) as G. rewrite !Rpow_pos by assumption. unfold bare.
  replace (Rlit 1.0) with 1 by (dec_norm; lra). replace (Rlit (-180.0)) with (-180) by (dec_norm; lra).
  replace (Rlit 0.18) with 0.18 by (dec_norm; lra). replace (Rlit 0.1) with 0.1 by (dec_norm; lra).
  replace (Rlit (-0.82)) with (Ropp 0.82) by (dec_norm; lra). rewrite Rpower_Ropp. do 3 f_equal. unfold Rdiv. ring.
Qed.

(** ** The whole function as cases over the energy *)
Definition pieces (qm : R -> R -> R -> R) (Z Zt T : R) : R :=
  let W := z_eff_Winger (F:=R) Z (velocity T) Zt in
  let G := if Rlt_dec 30 T then if Rlt_dec T 1500 then if Rlt_dec 28 Z then
             moved (z_eff_Pierce_Blann Z (velocity T)) (if Rlt_dec Z 29 then z_eff_Pierce_Blann Z T else qm Z Zt T) Zt T else 0 else 0 else 0 in
  if Rlt_dec 1500 T then bare Z Zt T
  else if Rle_dec 1000 T then
    if Rle_dec Z 28 then mix 1000 1500 W (bare Z Zt T) T else mix 1000 1500 G (bare Z Zt T) T
  else if Rle_dec Z 28 then W
  else if Rle_dec 70 T then G else if Rlt_dec T 30 then W else mix 30 70 W G T.

Lemma atima_pieces qm Z Zt T : 0 < Z -> 0 < Zt -> 0 <= T -> z_eff_atima14_G (F:=R) qm Z T Zt = pieces qm Z Zt T.
Proof.
  intros HZ HT T0. unfold z_eff_atima14_G, z_eff_global_G. cbv zeta. rewrite beta_code, gamma_code. numR. rewrite (bare_code Z Zt T HZ HT T0).
  rewrite (Rpow_pos (Zt + Rlit 1)) by (dec_norm; lra).
  replace (Rlit 1500.0) with 1500 by (dec_norm; lra). replace (Rlit 1500) with 1500 by (dec_norm; lra). replace (Rlit 1000) with 1000 by (dec_norm; lra).
  replace (Rlit 2000) with 2000 by (dec_norm; lra). replace (Rlit 30.0) with 30 by (dec_norm; lra). replace (Rlit 70.0) with 70 by (dec_norm; lra).
  replace (Rlit 28) with 28 by (dec_norm; lra). replace (Rlit 29) with 29 by (dec_norm; lra). replace (Rlit 1) with 1 by (dec_norm; lra).
  replace (Rlit 1.4) with 1.4 by (dec_norm; lra). replace (Rlit 0.28) with 0.28 by (dec_norm; lra). replace (Rlit 0.04) with 0.04 by (dec_norm; lra).
  replace (Rlit 0.0) with 0 by (dec_norm; lra).
  unfold pieces. cbv zeta. set (W := z_eff_Winger _ _ _). set (B := bare _ _ _). set (P := z_eff_Pierce_Blann _ (velocity T)). set (P' := z_eff_Pierce_Blann _ T).
  assert (G : (if Rltb 30 T && Rltb T 1500 && Rltb 28 Z
      then ((if Rltb 2000 T then Z else if Rltb T 30 || Rltb Z 29 then P' else qm Z Zt T) - P) * 1.4 / Rpower (Zt + 1) 0.28 * (1 - exp (Ropp 0.04 * T)) + P else 0)
    = if Rlt_dec 30 T then if Rlt_dec T 1500 then if Rlt_dec 28 Z then moved P (if Rlt_dec Z 29 then P' else qm Z Zt T) Zt T else 0 else 0 else 0).
  { destruct (Rltb_spec 30 T) as [H1|H1]; destruct (Rlt_dec 30 T) as [K1|K1]; try (exfalso; lra); cbn [andb]; [|reflexivity].
    destruct (Rltb_spec T 1500) as [H2|H2]; destruct (Rlt_dec T 1500) as [K2|K2]; try (exfalso; lra); cbn [andb]; [|reflexivity].
    destruct (Rltb_spec 28 Z) as [H3|H3]; destruct (Rlt_dec 28 Z) as [K3|K3]; try (exfalso; lra); [|reflexivity].
    destruct (Rltb_spec 2000 T) as [H4|H4]; [lra|]. destruct (Rltb_spec T 30) as [H5|H5]; [lra|]. cbn [orb].
    unfold moved, weight. replace (Ropp 0.04 * T) with (- (0.04 * T)) by ring.
    destruct (Rltb_spec Z 29) as [H6|H6]; destruct (Rlt_dec Z 29) as [K6|K6]; try (exfalso; lra); unfold Rdiv; ring. }
  rewrite G. clear G. match goal with |- context [mix 30 70 W ?g T] => set (G := g) end. unfold mix.
  destruct (Rltb_spec 1500 T) as [H1|H1]; destruct (Rlt_dec 1500 T) as [K1|K1]; try (exfalso; lra); [reflexivity|].
  destruct (Rleb_spec 1000 T) as [H2|H2]; destruct (Rle_dec 1000 T) as [K2|K2]; try (exfalso; lra); cbn [andb].
  - destruct (Rleb_spec T 1500) as [H3|H3]; [|lra]. destruct (Rleb_spec Z 28) as [H4|H4]; destruct (Rle_dec Z 28) as [K4|K4]; try (exfalso; lra); reflexivity.
  - destruct (Rleb_spec Z 28) as [H4|H4]; destruct (Rle_dec Z 28) as [K4|K4]; try (exfalso; lra); [reflexivity|].
    destruct (Rleb_spec 70 T) as [H5|H5]; destruct (Rle_dec 70 T) as [K5|K5]; try (exfalso; lra); [reflexivity|].
    destruct (Rltb_spec T 30) as [H6|H6]; destruct (Rlt_dec T 30) as [K6|K6]; try (exfalso; lra); reflexivity.
Qed.

Lemma mix_l a b f g : a < b -> mix a b f g a = f.
Proof. intros H. unfold mix. field. lra. Qed.
Lemma mix_r a b f g : a < b -> mix a b f g b = g.
Proof. intros H. unfold mix. field. lra. Qed.

(** ** Light ions: Winger, then the bare-ion formula, with a straight mixture between 1000 and 1500 MeV/u; GLOBAL is not asked.
    The ranges include their ends, so the formulas agree where they meet. *)
Theorem C67_light qm A Z Q T t c cw : c_zeff c = z_atima14 -> c_zeff cw = z_winger -> 0 < Z <= 28 -> (1 <= tZ t)%Z -> 0 <= T ->
  let p := mkProj A Z Q T in let W := z_effective p t cw in let B := bare Z (IZR (tZ t)) T in
  (T <= 1000 -> z_effective_G (F:=R) qm p t c = W) /\
  (1000 <= T <= 1500 -> z_effective_G (F:=R) qm p t c = W + (T - 1000) / 500 * (B - W)) /\
  (1500 <= T -> z_effective_G (F:=R) qm p t c = B).
Proof.
  intros E EW HZ HT T0 p W B. unfold W, p. rewrite atima_code, winger_code by assumption. assert (HT' : 1 <= IZR (tZ t)) by (apply IZR_le in HT; exact HT).
  rewrite atima_pieces by lra. unfold pieces. cbv zeta. fold B.
  destruct (Rle_dec Z 28) as [_|N]; [|lra]. set (W' := z_eff_Winger _ _ _). clearbody W' B.
  destruct (Rlt_dec 1500 T) as [H1|H1]; [split; [|split]; intros; try lra; reflexivity|].
  destruct (Rle_dec 1000 T) as [H2|H2]; split; [|split| |split]; intros; try lra; unfold mix.
  - replace T with 1000 by lra. lra.
  - field.
  - replace T with 1500 by lra. lra.
Qed.
Print Assumptions C67_light.

(** ** Heavy ions: Winger up to 30 MeV/u, GLOBAL's charge moved away from the Pierce-Blann charge from 70 to 1000 MeV/u, the bare-ion
    formula from 1500 MeV/u on, and straight mixtures between *)
Theorem C67_heavy qm A Z Q T t c cw cp : c_zeff c = z_atima14 -> c_zeff cw = z_winger -> c_zeff cp = z_pierce_blann -> 29 <= Z -> (1 <= tZ t)%Z -> 0 <= T ->
  let p := mkProj A Z Q T in let Zt := IZR (tZ t) in let W := z_effective p t cw in let B := bare Z Zt T in
  let G := moved (z_effective p t cp) (qm Z Zt T) Zt T in
  (T <= 30 -> z_effective_G (F:=R) qm p t c = W) /\
  (30 <= T <= 70 -> z_effective_G (F:=R) qm p t c = W + (T - 30) / 40 * (G - W)) /\
  (70 <= T <= 1000 -> z_effective_G (F:=R) qm p t c = G) /\
  (1000 <= T <= 1500 -> z_effective_G (F:=R) qm p t c = G + (T - 1000) / 500 * (B - G)) /\
  (1500 <= T -> z_effective_G (F:=R) qm p t c = B).
Proof.
  intros E EW EP HZ HT T0 p Zt W B G. unfold G, W, p. rewrite atima_code, winger_code, pb_code by assumption. assert (HT' : 1 <= IZR (tZ t)) by (apply IZR_le in HT; exact HT).
  rewrite atima_pieces by (unfold Zt in *; lra). unfold pieces. cbv zeta. fold Zt. fold B.
  destruct (Rle_dec Z 28) as [N|_]; [lra|]. destruct (Rlt_dec 28 Z) as [_|N]; [|lra]. destruct (Rlt_dec Z 29) as [N|_]; [lra|].
  set (W' := z_eff_Winger _ _ _). set (G' := moved _ _ _ _). clearbody W' G' B.
  destruct (Rlt_dec 1500 T) as [H1|H1].
  { repeat split; intros; try lra; reflexivity. }
  destruct (Rle_dec 1000 T) as [H2|H2].
  { destruct (Rlt_dec 30 T) as [_|N]; [|lra]. unfold mix. destruct (Rlt_dec T 1500) as [H3|H3].
    - repeat split; intros; try lra; assert (T = 1000) as -> by lra; lra.
    - assert (T = 1500) as -> by lra. repeat split; intros; lra. }
  destruct (Rlt_dec T 1500) as [_|N]; [|lra]. destruct (Rle_dec 70 T) as [H4|H4].
  { destruct (Rlt_dec 30 T) as [_|N]; [|lra]. repeat split; intros; try lra; assert (T = 70) as -> by lra; lra. }
  destruct (Rlt_dec T 30) as [H5|H5]; [repeat split; intros; try lra|]. unfold mix. destruct (Rlt_dec 30 T) as [H6|H6].
  - repeat split; intros; try lra.
  - assert (T = 30) as -> by lra. repeat split; intros; lra.
Qed.
Print Assumptions C67_heavy.

(** ** Nothing else changes: every other model gives the same charge in both builds, in any number type; so does [global] wherever it
    does not ask the external code *)
Theorem C67_same {F} {N : Num F} qm p t c : c_zeff c <> z_atima14 ->
  (c_zeff c <> z_global \/ fltb (lit 2000) (pT p) = true \/ fltb (pT p) (lit 30.0) = true \/ fltb (pZ p) (lit 29) = true) ->
  z_effective_G (F:=F) qm p t c = z_effective p t c.
Proof.
  intros NA H. unfold z_effective_G, z_effective. destruct (Z.eqb_spec (c_zeff c) z_global) as [EG|NG].
  - destruct H as [H|H]; [contradiction|]. rewrite EG. change (z_global =? z_none)%Z with false. change (z_global =? z_pierce_blann)%Z with false.
    change (z_global =? z_anthony_landorf)%Z with false. change (z_global =? z_hubert)%Z with false. change (z_global =? z_winger)%Z with false. cbv iota zeta.
    unfold z_eff_global_G, z_eff_global. destruct (fltb (lit 2000) (pT p)); [reflexivity|].
    destruct (fltb (pT p) (lit 30.0)), (fltb (pZ p) (lit 29)); try reflexivity. destruct H as [H|[H|H]]; discriminate.
  - destruct (Z.eqb_spec (c_zeff c) z_atima14) as [EA|_]; [contradiction|reflexivity].
Qed.
Print Assumptions C67_same.

(** the model [global]: GLOBAL's charge for heavy ions from 30 to 2000 MeV/u *)
Theorem C67_global qm A Z Q T t c : c_zeff c = z_global -> 29 <= Z -> 30 <= T <= 2000 ->
  z_effective_G (F:=R) qm (mkProj A Z Q T) t c = qm Z (IZR (tZ t)) T.
Proof.
  intros E HZ HT. unfold z_effective_G. rewrite E. change (z_eff_global_G (F:=R) qm Z T (IZR (tZ t)) = qm Z (IZR (tZ t)) T). unfold z_eff_global_G. numR.
  destruct (Rltb_spec (Rlit 2000) T) as [H|_]; [exfalso; revert H; dec_norm; lra|]. destruct (Rltb_spec T (Rlit 30.0)) as [H|_]; [exfalso; revert H; dec_norm; lra|].
  destruct (Rltb_spec Z (Rlit 29)) as [H|_]; [exfalso; revert H; dec_norm; lra|]. reflexivity.
Qed.
Print Assumptions C67_global.

(** the default settings differ between the builds in the model of the charge alone *)
Theorem C67_default {F} {N : Num F} : c_zeff (Config0_G (F:=F)) = z_atima14 /\ c_zeff (Config0 (F:=F)) = z_pierce_blann /\
  Config0_G (F:=F) = mkConfig z_atima14 (c_corr Config0) (c_calc Config0) (c_low Config0) (c_scat Config0) (c_sfac Config0).
Proof. split; [reflexivity|split; reflexivity]. Qed.
Print Assumptions C67_default.

(** ** Bounds *)
Lemma velocity_range T : 0 <= T -> 0 <= velocity T < 1.
Proof. intros H. rewrite <- beta_code. destruct C36_beta as (B1 & _). now apply B1. Qed.
Lemma pb_range Z b : 0 < Z -> 0 <= b -> 0 <= z_eff_Pierce_Blann (F:=R) Z b < Z.
Proof.
  intros HZ HB. rewrite pb_form. split; [|apply saturate; lra]. pose proof (pb_k Z HZ) as K. set (k := 95 / 100 * _ / _) in *.
  assert (exp (- k * b) <= 1); [|apply Rmult_le_pos; lra]. rewrite <- exp_0. assert (- k * b <= 0) as [L| ->] by nra; [left; now apply exp_increasing|right; reflexivity].
Qed.
Lemma bare_range Z Zt T : 0 < Z -> 0 < T -> 0 < bare Z Zt T < Z.
Proof.
  intros HZ HT. unfold bare. assert (V : 0 < velocity T) by (rewrite <- beta_code; destruct C36_beta as (_ & B2 & _); now apply B2).
  set (y := 180 * velocity T * _ * _ / _). assert (Y : 0 < y).
  { unfold y. apply Rdiv_lt_0_compat; [|apply exp_pos]. repeat apply Rmult_lt_0_compat; try apply exp_pos; lra. }
  assert (E : 0 < exp (- y) < 1) by (split; [apply exp_pos|rewrite <- exp_0; apply exp_increasing; lra]). clearbody y.
  assert (0 < Z * exp (- y)) by (apply Rmult_lt_0_compat; lra). assert (0 < Z * (1 - exp (- y))) by (apply Rmult_lt_0_compat; lra). lra.
Qed.
Lemma winger_below Z b Zt : 0 < Z -> z_eff_Winger (F:=R) Z b Zt < Z.
Proof.
  intros HZ. unfold z_eff_Winger. cbv zeta. numR. match goal with |- _ * (_ - exp ?e) < _ => pose proof (exp_pos e) as X; set (y := exp e) in * end.
  replace (Rlit 1) with 1 by (dec_norm; lra). assert (0 < Z * y) by (apply Rmult_lt_0_compat; assumption). lra.
Qed.
Lemma r28 a x : 0 < a -> 0 < x -> (x ^ 25 < a ^ 7 -> x < Rpower a 0.28) /\ (a ^ 7 < x ^ 25 -> Rpower a 0.28 < x).
Proof.
  intros HA HX. set (y := Rpower a 0.28). assert (Y : 0 < y) by apply exp_pos.
  assert (P : y ^ 25 = a ^ 7).
  { rewrite <- (Rpower_pow 25 y Y). unfold y. rewrite Rpower_mult. rewrite <- (Rpower_pow 7 a HA). f_equal. rewrite !INR_IZR_INZ. cbn -[Rmult]. lra. }
  clearbody y. rewrite <- P. split; intros H; apply Rnot_le_lt; intros L; [pose proof (pow_incr y x 25)|pose proof (pow_incr x y 25)]; lra.
Qed.
Lemma w_exp T : 0 < T -> 0 < 1 - exp (- (0.04 * T)) < 1.
Proof. intros H. pose proof (exp_pos (- (0.04 * T))). assert (exp (- (0.04 * T)) < 1); [rewrite <- exp_0; apply exp_increasing; lra|lra]. Qed.
Lemma weight_pos Zt T : 1 <= Zt -> 0 < T -> 0 < weight Zt T < 1.4.
Proof.
  intros HZ HT. unfold weight. pose proof (w_exp T HT) as E. set (e := 1 - exp _) in *. clearbody e.
  assert (P : 1 < Rpower (Zt + 1) 0.28) by (apply Rle_lt_trans with (Rpower (Zt + 1) 0); [rewrite Rpower_O by lra; lra|apply Rpower_lt; lra]).
  set (y := Rpower _ _) in *. clearbody y. assert (I : 0 < / y < 1) by (split; [apply Rinv_0_lt_compat; lra|rewrite <- Rinv_1; apply Rinv_lt_contravar; lra]).
  unfold Rdiv. nra.
Qed.
Lemma weight_lt1 Zt T : 3 <= Zt -> 0 < T -> weight Zt T < 1.
Proof.
  intros HZ HT. unfold weight. pose proof (w_exp T HT) as E. set (e := 1 - exp _) in *. clearbody e.
  assert (P : 1.4 < Rpower (Zt + 1) 0.28).
  { apply (r28 (Zt + 1) 1.4); try lra. apply Rlt_le_trans with (4 ^ 7); [lra|]. apply pow_incr. lra. }
  set (y := Rpower _ _) in *. clearbody y. assert (I : 1.4 / y < 1) by (apply Rmult_lt_reg_r with y; [lra|]; unfold Rdiv; rewrite Rmult_assoc, Rinv_l by lra; lra).
  assert (0 < 1.4 / y) by (apply Rdiv_lt_0_compat; lra). nra.
Qed.
Lemma weight_gt1 Zt T : 1 <= Zt <= 2 -> 100 <= T -> 1 < weight Zt T.
Proof.
  intros HZ HT. unfold weight.
  assert (P : Rpower (Zt + 1) 0.28 < 1.37).
  { apply (r28 (Zt + 1) 1.37); try lra. apply Rle_lt_trans with (3 ^ 7); [apply pow_incr; lra|lra]. }
  assert (P0 : 0 < Rpower (Zt + 1) 0.28) by apply exp_pos. set (y := Rpower _ _) in *. clearbody y.
  assert (E : exp (- (0.04 * T)) < 1 / 48).
  { rewrite exp_Ropp. unfold Rdiv. rewrite Rmult_1_l. apply Rinv_lt_contravar; [apply Rmult_lt_0_compat; [lra|apply exp_pos]|].
    assert (X : exp (1 / 16) ^ 64 = exp 4).
    { rewrite <- Rpower_pow by apply exp_pos. unfold Rpower. rewrite ln_exp. f_equal. rewrite INR_IZR_INZ. cbn -[Rmult Rdiv]. lra. }
    apply Rlt_le_trans with (exp 4).
    - rewrite <- X. apply Rlt_le_trans with ((17 / 16) ^ 64); [lra|]. apply pow_incr. pose proof (exp_ineq1_le (1 / 16)). lra.
    - assert (4 <= 0.04 * T) as [L|E4] by lra; [left; now apply exp_increasing|right; now f_equal]. }
  set (e := exp _) in *. clearbody e.
  assert (I : 1.4 / 1.37 < 1.4 / y) by (unfold Rdiv; apply Rmult_lt_compat_l; [lra|apply Rinv_lt_contravar; nra]). nra.
Qed.

(** In targets from lithium on, the charge stays at or below Z at every energy, and from 70 MeV/u on it is not negative, if GLOBAL's
    charges are between 0 and Z. For light ions, and above 1500 MeV/u, it is below Z whatever GLOBAL says. *)
Definition a_charge (qm : R -> R -> R -> R) (Z Zt : R) : Prop := forall E, 30 < E < 1500 -> 0 <= qm Z Zt E <= Z.

Theorem C67_bound qm A Z Q T t c : c_zeff c = z_atima14 -> 29 <= Z -> (3 <= tZ t)%Z -> 0 < T -> a_charge qm Z (IZR (tZ t)) ->
  z_effective_G (F:=R) qm (mkProj A Z Q T) t c <= Z /\ (70 <= T -> 0 <= z_effective_G (F:=R) qm (mkProj A Z Q T) t c).
Proof.
  intros E HZ HT T0 HQ. rewrite atima_code by assumption. set (Zt := IZR (tZ t)) in *. assert (HT' : 3 <= Zt) by (apply IZR_le in HT; exact HT).
  rewrite atima_pieces by lra. unfold pieces. cbv zeta.
  destruct (Rle_dec Z 28) as [N|_]; [lra|]. destruct (Rlt_dec 28 Z) as [_|N]; [|lra]. destruct (Rlt_dec Z 29) as [N|_]; [lra|].
  pose proof (winger_below Z (velocity T) Zt ltac:(lra)) as W. set (W' := z_eff_Winger _ _ _) in *. clearbody W'.
  pose proof (bare_range Z Zt T ltac:(lra) T0) as B. set (B' := bare _ _ _) in *. clearbody B'.
  set (G := if Rlt_dec 30 T then _ else _). assert (HG : 0 <= G <= Z).
  { unfold G. destruct (Rlt_dec 30 T) as [H1|H1]; [|lra]. destruct (Rlt_dec T 1500) as [H2|H2]; [|lra]. pose proof (HQ T (conj H1 H2)) as q1.
    pose proof (pb_range Z (velocity T) ltac:(lra) (proj1 (velocity_range T ltac:(lra)))) as P. unfold moved. set (P' := z_eff_Pierce_Blann _ _) in *. clearbody P'.
    pose proof (weight_pos Zt T ltac:(lra) T0) as [K0 _]. pose proof (weight_lt1 Zt T HT' T0) as K1. set (k := weight Zt T) in *. clearbody k.
    replace (P' + (qm Z Zt T - P') * k) with ((1 - k) * P' + k * qm Z Zt T) by ring.
    assert (0 <= (1 - k) * P' <= (1 - k) * Z) by (split; [apply Rmult_le_pos; lra|apply Rmult_le_compat_l; lra]).
    assert (0 <= k * qm Z Zt T <= k * Z) by (split; [apply Rmult_le_pos; lra|apply Rmult_le_compat_l; lra]). lra. }
  clearbody G. assert (MIX : forall a b f g, a <= T <= b -> a < b -> f <= Z -> g <= Z -> mix a b f g T <= Z /\ (0 <= f -> 0 <= g -> 0 <= mix a b f g T)).
  { intros a b f g Hab ab Hf Hg. unfold mix. assert (I : 0 < / (b - a)) by (apply Rinv_0_lt_compat; lra). split.
    - apply Rmult_le_reg_r with (b - a); [lra|]. unfold Rdiv. rewrite Rmult_assoc, Rinv_l by lra. nra.
    - intros f0 g0. apply Rmult_le_pos; [|lra]. apply Rplus_le_le_0_compat; apply Rmult_le_pos; lra. }
  destruct (Rlt_dec 1500 T) as [H1|H1]; [lra|]. destruct (Rle_dec 1000 T) as [H2|H2].
  { destruct (MIX 1000 1500 G B' ltac:(lra) ltac:(lra) ltac:(lra) ltac:(lra)) as [M1 M2]. split; [exact M1|intros _; apply M2; lra]. }
  destruct (Rle_dec 70 T) as [H3|H3]; [lra|]. destruct (Rlt_dec T 30) as [H4|H4]; [lra|].
  destruct (MIX 30 70 W' G ltac:(lra) ltac:(lra) ltac:(lra) ltac:(lra)) as [M1 _]. split; [exact M1|lra].
Qed.
Print Assumptions C67_bound.

Theorem C67_light_bound qm A Z Q T t c : c_zeff c = z_atima14 -> 0 < Z -> (1 <= tZ t)%Z -> 0 < T -> Z <= 28 \/ 1500 < T ->
  z_effective_G (F:=R) qm (mkProj A Z Q T) t c < Z /\ (1500 < T -> 0 < z_effective_G (F:=R) qm (mkProj A Z Q T) t c).
Proof.
  intros E HZ HT T0 H. rewrite atima_code by assumption. set (Zt := IZR (tZ t)) in *. assert (HT' : 1 <= Zt) by (apply IZR_le in HT; exact HT).
  rewrite atima_pieces by lra. unfold pieces. cbv zeta. pose proof (bare_range Z Zt T ltac:(lra) T0) as B.
  destruct (Rlt_dec 1500 T) as [H1|H1]; [lra|]. destruct (Rle_dec Z 28) as [_|N]; [|lra].
  pose proof (winger_below Z (velocity T) Zt ltac:(lra)) as W. destruct (Rle_dec 1000 T) as [H2|H2]; (split; [|lra]); [|exact W].
  unfold mix. set (w := z_eff_Winger _ _ _) in *. set (b := bare _ _ _) in *. clearbody w b.
  assert (0 <= (1500 - T) * (Z - w)) by (apply Rmult_le_pos; lra). assert (0 <= (T - 1000) * (Z - b)) by (apply Rmult_le_pos; lra).
  assert (0 < (1500 - T) * (Z - w) + (T - 1000) * (Z - b)); [|lra].
  destruct (Rlt_dec T 1250); [assert (0 < (1500 - T) * (Z - w)) by (apply Rmult_lt_0_compat; lra)|assert (0 < (T - 1000) * (Z - b)) by (apply Rmult_lt_0_compat; lra)]; lra.
Qed.
Print Assumptions C67_light_bound.

(** In hydrogen and helium the factor 1.4 (Zt + 1)^-0.28 is above 1, so a projectile that GLOBAL finds fully stripped gets a charge above Z *)
Theorem C67_excess qm A Z Q T t c : c_zeff c = z_atima14 -> 29 <= Z -> (1 <= tZ t <= 2)%Z -> 100 <= T <= 1000 -> qm Z (IZR (tZ t)) T = Z ->
  Z < z_effective_G (F:=R) qm (mkProj A Z Q T) t c.
Proof.
  intros E HZ HT T0 HQ. assert (HT' : 1 <= IZR (tZ t) <= 2) by (split; apply IZR_le; lia).
  set (cw := mkConfig z_winger 0 0 0 0 1 : Config R). set (cp := mkConfig z_pierce_blann 0 0 0 0 1 : Config R).
  destruct (C67_heavy qm A Z Q T t c cw cp E eq_refl eq_refl HZ ltac:(lia) ltac:(lra)) as (_ & _ & H & _). rewrite H by lra. clear H.
  rewrite pb_code by reflexivity. rewrite HQ. unfold moved.
  pose proof (pb_range Z (velocity T) ltac:(lra) (proj1 (velocity_range T ltac:(lra)))) as P. pose proof (weight_gt1 (IZR (tZ t)) T HT' ltac:(lra)) as K.
  set (P' := z_eff_Pierce_Blann _ _) in *. clearbody P'. nra.
Qed.
Print Assumptions C67_excess.

Theorem C67_bound_refuted : exists qm Z T t, a_charge qm Z (IZR (tZ t)) /\ tZ t = 1%Z /\ 0 < T /\
  Z < z_effective_G (F:=R) qm (mkProj 238 Z Z T) t Config0_G.
Proof.
  exists (fun Z _ _ => Z), 92, 300, (mkTarget 1 1 1). cbn [tZ]. split; [intros E _; lra|]. split; [reflexivity|]. split; [lra|].
  apply C67_excess; try reflexivity; cbn [tZ]; try lra; lia.
Qed.
Print Assumptions C67_bound_refuted.

(** above 1500 MeV/u the charge increases with the energy *)
Theorem C67_bare_increases qm A Z Q t c T1 T2 : c_zeff c = z_atima14 -> 0 < Z -> (1 <= tZ t)%Z -> 1500 < T1 -> T1 < T2 ->
  z_effective_G (F:=R) qm (mkProj A Z Q T1) t c < z_effective_G (F:=R) qm (mkProj A Z Q T2) t c.
Proof.
  intros E HZ HT H1 H2. rewrite !atima_code by assumption. set (Zt := IZR (tZ t)) in *. assert (HT' : 1 <= Zt) by (apply IZR_le in HT; exact HT).
  rewrite !atima_pieces by lra. unfold pieces. cbv zeta. destruct (Rlt_dec 1500 T1) as [_|N]; [|lra]. destruct (Rlt_dec 1500 T2) as [_|N]; [|lra].
  unfold bare. apply Rmult_lt_compat_l; [exact HZ|]. apply Rplus_lt_compat_l, Ropp_lt_contravar, exp_increasing, Ropp_lt_contravar.
  unfold Rdiv. apply Rmult_lt_compat_r; [apply Rinv_0_lt_compat, exp_pos|]. apply Rmult_lt_compat_r; [apply exp_pos|].
  destruct C36_beta as (_ & B2 & B3 & _). pose proof (B3 T1 T2 ltac:(lra) H2) as V. pose proof (B2 T1 ltac:(lra)) as V0. rewrite !beta_code in *.
  apply Rmult_gt_0_lt_compat; [apply exp_pos|lra|lra|]. apply Rlt_Rpower_l; [lra|]. split; [apply lorentz_pos; lra|].
  rewrite <- !gamma_code, !gamma_R. apply Rplus_lt_compat_l. apply Rmult_lt_compat_r; [apply Rinv_0_lt_compat, u0_pos|exact H2].
Qed.
Print Assumptions C67_bare_increases.

(** ** Continuity in the energy *)
Lemma vel_cont T : 0 < T -> continuity_pt velocity T.
Proof.
  intros H. assert (C : continuity_pt lorentz T).
  { apply (cont_loc _ (fun x => 1 + x / u0) T 1 ltac:(lra)); [intros x _; rewrite <- gamma_code, gamma_R; reflexivity|].
    unfold Rdiv. apply continuity_pt_plus; [apply cont_const|apply continuity_pt_mult; [apply cont_id|apply cont_const]]. }
  pose proof (lorentz_pos T ltac:(lra)) as L. destruct (velocity_sq T H) as [V1 V2]. unfold velocity. apply cont_sqrtf.
  - rewrite <- V1. apply Rmult_lt_0_compat; exact V2.
  - apply continuity_pt_minus; [apply cont_const|]. apply continuity_pt_div; [apply cont_const|now apply cont_ipow|]. apply pow_nonzero. lra.
Qed.
Lemma lor_cont T : continuity_pt lorentz T.
Proof.
  apply (cont_loc _ (fun x => 1 + x / u0) T 1 ltac:(lra)); [intros x _; rewrite <- gamma_code, gamma_R; reflexivity|].
  unfold Rdiv. apply continuity_pt_plus; [apply cont_const|apply continuity_pt_mult; [apply cont_id|apply cont_const]].
Qed.
Lemma winger_cont Z Zt T : 0 < T -> continuity_pt (fun T => z_eff_Winger (F:=R) Z (velocity T) Zt) T.
Proof.
  intros H. apply (continuity_pt_comp velocity (fun b => z_eff_Winger (F:=R) Z b Zt)); [now apply vel_cont|]. unfold z_eff_Winger. cbv zeta. numR.
  apply continuity_pt_mult; [apply cont_const|]. apply continuity_pt_minus; [apply cont_const|]. apply cont_exp. unfold Rdiv.
  repeat first [apply cont_const | apply cont_id | apply continuity_pt_plus | apply continuity_pt_mult].
Qed.
Lemma pb_cont Z T : 0 < T -> continuity_pt (fun T => z_eff_Pierce_Blann (F:=R) Z (velocity T)) T.
Proof.
  intros H. apply (cont_loc _ (fun T => Z * (1 - 1 * exp (- (95 / 100 * fine_structure_inverted / Rpow_c Z (2 / 3)) * velocity T))) T 1 ltac:(lra)); [intros; apply pb_form|].
  apply continuity_pt_mult; [apply cont_const|]. apply continuity_pt_minus; [apply cont_const|]. apply continuity_pt_mult; [apply cont_const|]. apply cont_exp.
  apply continuity_pt_mult; [apply cont_const|now apply vel_cont].
Qed.
Lemma bare_cont Z Zt T : 0 < T -> continuity_pt (bare Z Zt) T.
Proof.
  intros H. unfold bare. apply continuity_pt_mult; [apply cont_const|]. apply continuity_pt_minus; [apply cont_const|]. apply cont_exp. apply continuity_pt_opp. unfold Rdiv.
  apply continuity_pt_mult; [|apply cont_const]. apply continuity_pt_mult; [|apply cont_const]. apply continuity_pt_mult.
  - apply continuity_pt_mult; [apply cont_const|now apply vel_cont].
  - apply cont_powf; [apply lorentz_pos; lra|apply lor_cont].
Qed.
Lemma mix_cont a b f g T : continuity_pt f T -> continuity_pt g T -> continuity_pt (fun x => mix a b (f x) (g x) x) T.
Proof.
  intros Hf Hg. unfold mix, Rdiv. apply continuity_pt_mult; [|apply cont_const]. apply continuity_pt_plus; apply continuity_pt_mult; try assumption;
    apply continuity_pt_minus; first [apply cont_const|apply cont_id].
Qed.
(** a function that is small with the distance from [a] *)
Lemma cont_small f a M : f a = 0 -> (forall x, Rabs (x - a) < 1 -> Rabs (f x) <= M * Rabs (x - a)) -> continuity_pt f a.
Proof.
  intros F0 H eps He. exists (Rmin 1 (eps / (Rabs M + 1))). pose proof (Rabs_pos M) as M0. split; [apply Rmin_glb_lt; [lra|apply Rdiv_lt_0_compat; lra]|].
  intros x [_ Hx]. cbn [dist R_met] in *. unfold R_dist in *. rewrite F0, Rminus_0_r. pose proof (Rmin_l 1 (eps / (Rabs M + 1))). pose proof (Rmin_r 1 (eps / (Rabs M + 1))).
  specialize (H x ltac:(lra)). pose proof (Rabs_pos (x - a)) as D. pose proof (Rle_abs M).
  assert (Rabs (x - a) * (Rabs M + 1) < eps); [|nra].
  apply Rlt_le_trans with (eps / (Rabs M + 1) * (Rabs M + 1)); [apply Rmult_lt_compat_r; lra|]. right. field. lra.
Qed.

Theorem C67_light_continuous qm A Z Q t c T : c_zeff c = z_atima14 -> 0 < Z <= 28 -> (1 <= tZ t)%Z -> 0 < T ->
  continuity_pt (fun T => z_effective_G (F:=R) qm (mkProj A Z Q T) t c) T.
Proof.
  intros E HZ HT T0. set (Zt := IZR (tZ t)) in *. set (cw := mkConfig z_winger 0 0 0 0 1 : Config R).
  assert (L : forall x, 0 < x -> (x <= 1000 -> z_effective_G (F:=R) qm (mkProj A Z Q x) t c = z_eff_Winger Z (velocity x) Zt) /\
    (1000 <= x <= 1500 -> z_effective_G (F:=R) qm (mkProj A Z Q x) t c = mix 1000 1500 (z_eff_Winger Z (velocity x) Zt) (bare Z Zt x) x) /\
    (1500 <= x -> z_effective_G (F:=R) qm (mkProj A Z Q x) t c = bare Z Zt x)).
  { intros x X. destruct (C67_light qm A Z Q x t c cw E eq_refl HZ HT ltac:(lra)) as (L1 & L2 & L3). rewrite winger_code in L1, L2 by reflexivity.
    split; [exact L1|]. split; [|exact L3]. intros H. rewrite L2 by exact H. unfold mix. fold Zt. field. }
  set (f := fun x => z_effective_G (F:=R) qm (mkProj A Z Q x) t c). set (w := fun x => z_eff_Winger (F:=R) Z (velocity x) Zt). set (b := bare Z Zt).
  pose proof (winger_cont Z Zt T T0) as CW. pose proof (bare_cont Z Zt T T0) as CB. fold w in CW. fold b in CB.
  pose proof (mix_cont 1000 1500 w b T CW CB) as CM.
  destruct (Rtotal_order T 1000) as [H|[H|H]].
  - apply (cont_loc f w T (Rmin T (1000 - T))); [apply Rmin_glb_lt; lra| |exact CW]. intros x X. pose proof (Rmin_l T (1000 - T)). pose proof (Rmin_r T (1000 - T)).
    apply Rabs_def2 in X. apply L; lra.
  - apply (PropSrim.glue f w (fun x => mix 1000 1500 (w x) (b x) x) T 500 ltac:(lra)); try assumption.
    + intros x X KX. apply Rabs_def2 in X. subst T. apply L; lra.
    + intros x X KX. apply Rabs_def2 in X. subst T. apply L; lra.
    + subst T. rewrite mix_l; [reflexivity|lra].
  - destruct (Rtotal_order T 1500) as [K|[K|K]].
    + apply (cont_loc f (fun x => mix 1000 1500 (w x) (b x) x) T (Rmin (T - 1000) (1500 - T))); [apply Rmin_glb_lt; lra| |exact CM]. intros x X.
      pose proof (Rmin_l (T - 1000) (1500 - T)). pose proof (Rmin_r (T - 1000) (1500 - T)). apply Rabs_def2 in X. apply L; lra.
    + apply (PropSrim.glue f (fun x => mix 1000 1500 (w x) (b x) x) b T 500 ltac:(lra)); try assumption.
      * intros x X KX. apply Rabs_def2 in X. subst T. apply L; lra.
      * intros x X KX. apply Rabs_def2 in X. subst T. apply L; lra.
      * subst T. rewrite mix_r; [reflexivity|lra].
    + apply (cont_loc f b T (T - 1500)); [lra| |exact CB]. intros x X. apply Rabs_def2 in X. apply L; lra.
Qed.
Print Assumptions C67_light_continuous.

(** for heavy ions too, if GLOBAL's charge is between 0 and Z and continuous between 30 and 1500 MeV/u; nothing is asked of it elsewhere *)
Theorem C67_heavy_continuous qm A Z Q t c T : c_zeff c = z_atima14 -> 29 <= Z -> (1 <= tZ t)%Z -> 0 < T -> a_charge qm Z (IZR (tZ t)) ->
  (forall E, 30 < E < 1500 -> continuity_pt (qm Z (IZR (tZ t))) E) ->
  continuity_pt (fun T => z_effective_G (F:=R) qm (mkProj A Z Q T) t c) T.
Proof.
  intros E HZ HT T0 HQ CQ. set (Zt := IZR (tZ t)) in *. assert (HT' : 1 <= Zt) by (apply IZR_le in HT; exact HT).
  set (cw := mkConfig z_winger 0 0 0 0 1 : Config R). set (cp := mkConfig z_pierce_blann 0 0 0 0 1 : Config R).
  set (f := fun x => z_effective_G (F:=R) qm (mkProj A Z Q x) t c). set (w := fun x => z_eff_Winger (F:=R) Z (velocity x) Zt). set (b := bare Z Zt).
  set (P := fun x => z_eff_Pierce_Blann (F:=R) Z (velocity x)). set (g := fun x => moved (P x) (qm Z Zt x) Zt x).
  assert (L : forall x, 0 < x -> (x <= 30 -> f x = w x) /\ (30 <= x <= 70 -> f x = mix 30 70 (w x) (g x) x) /\ (70 <= x <= 1000 -> f x = g x) /\
    (1000 <= x <= 1500 -> f x = mix 1000 1500 (g x) (b x) x) /\ (1500 <= x -> f x = b x)).
  { intros x X. destruct (C67_heavy qm A Z Q x t c cw cp E eq_refl eq_refl HZ HT ltac:(lra)) as (L1 & L2 & L3 & L4 & L5).
    rewrite winger_code in L1, L2 by reflexivity. rewrite pb_code in L2, L3, L4 by reflexivity. fold Zt in L1, L2, L3, L4, L5. fold (P x) in L2, L3, L4. fold (g x) in L2, L3, L4.
    fold (w x) in L1, L2. fold (f x) in L1, L2, L3, L4, L5. fold b in L4, L5.
    split; [exact L1|]. split; [|split; [exact L3|split; [|exact L5]]]; intros H; [rewrite L2 by exact H|rewrite L4 by exact H]; unfold mix; field. }
  clearbody f. pose proof (winger_cont Z Zt T T0) as CW. pose proof (bare_cont Z Zt T T0) as CB. fold w in CW. fold b in CB.
  assert (CG : 30 < T < 1500 -> continuity_pt g T).
  { intros H. unfold g, moved, weight. apply continuity_pt_plus; [now apply pb_cont|]. apply continuity_pt_mult; [apply continuity_pt_minus; [now apply CQ|now apply pb_cont]|].
    apply continuity_pt_mult; [apply cont_const|]. apply continuity_pt_minus; [apply cont_const|]. apply cont_exp. apply continuity_pt_opp.
    apply continuity_pt_mult; [apply cont_const|apply cont_id]. }
  assert (BG : forall x, 30 < x < 1500 -> Rabs (g x) <= 3 * Z).
  { intros x X. pose proof (HQ x X) as q1. pose proof (pb_range Z (velocity x) ltac:(lra) (proj1 (velocity_range x ltac:(lra)))) as q2. fold (P x) in q2.
    pose proof (weight_pos Zt x HT' ltac:(lra)) as q3. unfold g, moved. set (k := weight Zt x) in *. set (q := qm Z Zt x) in *. set (pp := P x) in *. clearbody k q pp.
    assert (Rabs (q - pp) <= Z) by (apply Rabs_le; lra). eapply Rle_trans; [apply Rabs_triang|]. rewrite Rabs_mult, (Rabs_right pp), (Rabs_right k) by lra.
    pose proof (Rabs_pos (q - pp)). nra. }
  destruct (Rtotal_order T 30) as [H|[H|H]].
  - apply (cont_loc f w T (Rmin T (30 - T))); [apply Rmin_glb_lt; lra| |exact CW]. intros x X. pose proof (Rmin_l T (30 - T)). pose proof (Rmin_r T (30 - T)).
    apply Rabs_def2 in X. apply L; lra.
  - set (v := fun x => if Rlt_dec 30 x then (x - 30) * g x else 0).
    assert (CV : continuity_pt v T).
    { apply (cont_small v T (3 * Z)); [subst T; unfold v; destruct (Rlt_dec 30 30); lra|]. intros x X. subst T. apply Rabs_def2 in X. unfold v.
      destruct (Rlt_dec 30 x) as [K|K]; [|rewrite Rabs_R0; apply Rmult_le_pos; [lra|apply Rabs_pos]]. rewrite Rabs_mult, Rmult_comm.
      apply Rmult_le_compat_r; [apply Rabs_pos|]. apply BG. lra. }
    apply (PropSrim.glue f w (fun x => ((70 - x) * w x + v x) * / 40) T 20 ltac:(lra)); try assumption.
    + intros x X KX. apply Rabs_def2 in X. subst T. apply L; lra.
    + intros x X KX. apply Rabs_def2 in X. subst T. destruct (L x ltac:(lra)) as (_ & L2 & _). rewrite L2 by lra. unfold mix, v. destruct (Rlt_dec 30 x); [field|lra].
    + subst T. unfold v. destruct (Rlt_dec 30 30); [lra|field].
    + apply continuity_pt_mult; [|apply cont_const]. apply continuity_pt_plus; [|exact CV]. apply continuity_pt_mult; [|exact CW].
      apply continuity_pt_minus; [apply cont_const|apply cont_id].
  - destruct (Rlt_dec T 1500) as [H15|H15].
    + specialize (CG (conj H H15)). pose proof (mix_cont 30 70 w g T CW CG) as CM. pose proof (mix_cont 1000 1500 g b T CG CB) as CN.
      destruct (Rtotal_order T 70) as [K|[K|K]]; [| |destruct (Rtotal_order T 1000) as [J|[J|J]]].
      * apply (cont_loc f (fun x => mix 30 70 (w x) (g x) x) T (Rmin (T - 30) (70 - T))); [apply Rmin_glb_lt; lra| |exact CM]. intros x X.
        pose proof (Rmin_l (T - 30) (70 - T)). pose proof (Rmin_r (T - 30) (70 - T)). apply Rabs_def2 in X. apply L; lra.
      * apply (PropSrim.glue f (fun x => mix 30 70 (w x) (g x) x) g T 40 ltac:(lra)); try assumption.
        -- intros x X KX. apply Rabs_def2 in X. subst T. apply L; lra.
        -- intros x X KX. apply Rabs_def2 in X. subst T. apply L; lra.
        -- subst T. rewrite mix_r; [reflexivity|lra].
      * apply (cont_loc f g T (Rmin (T - 70) (1000 - T))); [apply Rmin_glb_lt; lra| |exact CG]. intros x X.
        pose proof (Rmin_l (T - 70) (1000 - T)). pose proof (Rmin_r (T - 70) (1000 - T)). apply Rabs_def2 in X. apply L; lra.
      * apply (PropSrim.glue f g (fun x => mix 1000 1500 (g x) (b x) x) T 500 ltac:(lra)); try assumption.
        -- intros x X KX. apply Rabs_def2 in X. subst T. apply L; lra.
        -- intros x X KX. apply Rabs_def2 in X. subst T. apply L; lra.
        -- subst T. rewrite mix_l; [reflexivity|lra].
      * apply (cont_loc f (fun x => mix 1000 1500 (g x) (b x) x) T (Rmin (T - 1000) (1500 - T))); [apply Rmin_glb_lt; lra| |exact CN]. intros x X.
        pose proof (Rmin_l (T - 1000) (1500 - T)). pose proof (Rmin_r (T - 1000) (1500 - T)). apply Rabs_def2 in X. apply L; lra.
    + destruct (Req_dec T 1500) as [K|K].
      * set (v := fun x => if Rlt_dec x 1500 then (1500 - x) * g x else 0).
        assert (CV : continuity_pt v T).
        { apply (cont_small v T (3 * Z)); [subst T; unfold v; destruct (Rlt_dec 1500 1500); lra|]. intros x X. subst T. unfold v.
          destruct (Rlt_dec x 1500) as [J|J]; [|rewrite Rabs_R0; apply Rmult_le_pos; [lra|apply Rabs_pos]]. rewrite Rabs_mult, Rmult_comm, (Rabs_minus_sym 1500).
          apply Rmult_le_compat_r; [apply Rabs_pos|]. apply Rabs_def2 in X. apply BG. lra. }
        apply (PropSrim.glue f (fun x => (v x + (x - 1000) * b x) * / 500) b T 200 ltac:(lra)); try assumption.
        -- intros x X KX. apply Rabs_def2 in X. subst T. destruct (L x ltac:(lra)) as (_ & _ & _ & L4 & _). rewrite L4 by lra. unfold mix, v.
           destruct (Rlt_dec x 1500); [field|]. assert (x = 1500) as -> by lra. field.
        -- intros x X KX. apply Rabs_def2 in X. subst T. apply L; lra.
        -- subst T. unfold v. destruct (Rlt_dec 1500 1500); [lra|field].
        -- apply continuity_pt_mult; [|apply cont_const]. apply continuity_pt_plus; [exact CV|]. apply continuity_pt_mult; [|exact CB].
           apply continuity_pt_minus; [apply cont_id|apply cont_const].
      * apply (cont_loc f b T (T - 1500)); [lra| |exact CB]. intros x X. apply Rabs_def2 in X. apply L; lra.
Qed.
Print Assumptions C67_heavy_continuous.

(** ** A concrete case: uranium in carbon with the settings of that build, if GLOBAL found 2 electrons on the ion at every energy *)
Example C67_case : let qm := fun Z _ _ : R => Z - 2 in let t := mkTarget 12 6 1 in let q T := z_effective_G (F:=R) qm (mkProj 238 92 92 T) t Config0_G in
  (forall T, 0 < T -> continuity_pt q T /\ q T <= 92) /\ 0 <= q 300 /\ q 2000 < q 3000.
Proof.
  cbv zeta. assert (AC : a_charge (fun Z _ _ : R => Z - 2) 92 (IZR (tZ (mkTarget 12 6 1)))) by (intros E _; lra). split; [|split].
  - intros T H. split; [apply C67_heavy_continuous; try reflexivity; try lra; [cbn; lia|exact AC|intros E _; apply cont_const]|].
    apply C67_bound; try reflexivity; try lra; [cbn; lia|exact AC].
  - apply C67_bound; try reflexivity; try lra; [cbn; lia|exact AC].
  - apply C67_bare_increases; try reflexivity; try lra. cbn; lia.
Qed.
