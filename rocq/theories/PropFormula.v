(** * C59: the formulas are the published ones

    Every formula of the energy-loss and scattering code is compared with its published form, written
    here with the usual symbols, units and physical constants. *)
From Coq Require Import ZArith QArith Qreals Reals Machin List Bool Lra Lia.
From Verif Require Import Num NumR Structures DataElements DataSrim EnergyTable Srim Calculations Integrator Storage Reactions Catima SpecData DataProofs
  BoundsProofs CacheFresh PropMaterial PropKin PropSrim PropCorr PropRad PropReact BetheBracket PropKronrod PropStrag Cases TotalProofs ApiTotal PropScatter.
Import ListNotations.
Local Open Scope R_scope.

(** decimals of the specification as quotients of integers *)
Ltac decs := cbv [Q2R QArith_base.Qnum QArith_base.Qden Z.pow_pos Pos.iter Z.mul Pos.mul Pos.add Pos.succ].

(** ** Constants *)
(** pi from Machin's formula pi/4 = 2 atan(1/3) + atan(1/7) *)
Lemma pi_close : Rabs (PI - PI_ (F:=R)) < 1e-12.
Proof.
  pose proof (PI_2_3_7_ineq 6) as H. unfold PI_2_3_7_tg, Ratan_seq, tg_alt, Rdiv in H. cbn [sum_f_R0 Nat.mul Nat.add pow INR] in H.
  unfold PI_. numR. dec_norm. decs. apply Rabs_def1; lra.
Qed.

(** CODATA values: N_A = 6.022140857e23 /mol, r_e = 2.8179403227e-13 cm, m_e c^2 = 0.510998928 MeV,
    1/alpha = 137.035999139, u = 931.4940954 MeV, hbar c = 197.327 MeV fm, c = 299.792458 mm/ns, a_0 = 0.52917721 A, e^2 = 14.399645 eV A *)
Definition N_A : R := 6.022140857e23.
Definition r_e : R := 2.8179403227e-13.
Definition mec2 : R := 0.510998928.
Definition alpha : R := 1 / 137.035999139.
Definition amu : R := 931.4940954.
(** the derived constants of the code: K = 4 pi N_A r_e^2 m_e c^2, hbar c, the scattering energy
    (2 pi / alpha)^(1/2) m_e c^2 (15 MeV within 0.1 per cent), the Bohr velocity alpha c within 0.2 per cent,
    alpha N_A r_e^2 of the scattering length, and the two constants 32.53/keV and 8.4621e-15 eV cm^2 of the universal
    nuclear stopping power, a/e^2 and 4 pi a e^2 for the screening length a = 0.8854 a_0 *)
Theorem C59_constants :
  Rabs (dedx_constant - 4 * PI * N_A * r_e ^ 2 * mec2) < 1e-11 /\
  domega2dx_constant (F:=R) = dedx_constant * mec2 /\
  fine_structure (F:=R) = alpha /\ fine_structure_inverted (F:=R) = 137.035999139 /\ electron_mass (F:=R) = mec2 /\ atomic_mass_unit (F:=R) = amu /\
  Rabs (Es_squared - 2 * PI / alpha * mec2 ^ 2) < 1e-8 /\ Rabs (Es_squared (F:=R) - 15 ^ 2) < 1e-3 * 15 ^ 2 /\
  Rabs (hbar * c_light / 10 - 197.327) < 1e-3 /\
  Rabs (bohr_velocity (F:=R) - alpha) < 2e-3 * alpha /\
  Rabs (0.00034896 - alpha * N_A * r_e ^ 2) < 1e-8 /\
  Rabs (32.53 - 1000 * (0.8854 * 0.52917721) / 14.399645) < 1e-2 /\
  Rabs (8.4621e-15 - 4 * PI * (0.8854 * 0.52917721) * 14.399645 * 1e-16) < 2e-3 * 8.4621e-15 /\
  Rabs (2.3025851 - LN10_) < 1e-8 /\ Rabs (4.6052 - 2 * LN10_) < 1e-4.
Proof.
  pose proof pi_close as P. revert P. unfold PI_. numR. dec_norm. decs. intros P. apply Rabs_def2 in P. destruct P as [P1 P2]. set (pi := PI) in *. clearbody pi.
  unfold Es_squared, domega2dx_constant, bohr_velocity, dedx_constant, fine_structure_inverted, fine_structure, electron_mass, atomic_mass_unit, hbar, c_light, PI_, LN10_, alpha, N_A, r_e, mec2, amu. numR. dec_norm. decs.
  repeat apply conj; try lra; try (apply Rabs_def1; lra).
  all: cbn [pow]; try (apply Rabs_def1; lra).
Qed.
Print Assumptions C59_constants.

(** ** Kinematics *)
Definition lorentz (T : R) : R := 1 + T / amu.
Definition velocity (T : R) : R := sqrt (1 - 1 / lorentz T ^ 2).
Lemma amu_pos : 0 < amu.
Proof. unfold amu. lra. Qed.
Lemma amu_code : atomic_mass_unit (F:=R) = amu.
Proof. apply C59_constants. Qed.
Lemma alpha_code : fine_structure (F:=R) = alpha.
Proof. apply C59_constants. Qed.
Lemma alpha_inv : fine_structure_inverted (F:=R) = 137.035999139.
Proof. apply C59_constants. Qed.
Lemma gamma_code T : gamma_from_T T = lorentz T.
Proof. unfold gamma_from_T, lorentz. rewrite amu_code. numR. replace (Rlit 1.0) with 1 by (dec_norm; lra). reflexivity. Qed.
Lemma beta_code T : beta_from_T T = velocity T.
Proof. unfold beta_from_T, velocity. rewrite gamma_code. numR. replace (Rlit 1.0) with 1 by (dec_norm; lra). replace (lorentz T ^ 2) with (lorentz T * lorentz T) by ring. reflexivity. Qed.
Lemma lorentz_gt T : 0 < T -> 1 < lorentz T.
Proof. intros H. unfold lorentz. pose proof amu_pos. assert (0 < T / amu) by (apply pos_quot; assumption). lra. Qed.
Lemma velocity_sq T : 0 < T -> velocity T * velocity T = 1 - 1 / lorentz T ^ 2 /\ 0 < velocity T.
Proof.
  intros H. pose proof (lorentz_gt T H) as G. assert (L : 1 / lorentz T ^ 2 < 1).
  { apply Rmult_lt_reg_r with (lorentz T ^ 2); [nra|]. unfold Rdiv. rewrite Rmult_assoc, Rinv_l by nra. nra. }
  unfold velocity. split; [apply sqrt_sqrt; lra|apply sqrt_lt_R0; lra].
Qed.
Lemma pow_half x : 0 < x -> Rpow_c x (5 / 10) = sqrt x.
Proof. intros H. rewrite Rpow_pos by exact H. replace (5 / 10) with (/ 2) by lra. apply Rpower_sqrt. exact H. Qed.
Lemma pow_two x : Rpow_c x 2 = x ^ 2.
Proof. replace 2 with (INR 2) at 1 by (cbn [INR]; lra). apply (Rpow_nat x 1). Qed.

Lemma ipow_two (x : R) : ipow x 2 = x * x.
Proof. reflexivity. Qed.

(** ** Nuclear stopping: Ziegler, Biersack and Littmark's universal formula.
    E in keV, reduced energy and reduced stopping; the result in MeV cm^2/g *)
Definition zbl_energy (Z1 M1 Z2 M2 E : R) : R := 32.53 * M2 * E / (Z1 * Z2 * (M1 + M2) * (Rpower Z1 0.23 + Rpower Z2 0.23)).
Definition zbl_reduced (e : R) : R :=
  if Rle_dec e 30 then ln (1 + 1.1383 * e) / (2 * (e + 0.01321 * Rpower e 0.21226 + 0.19593 * sqrt e)) else ln e / (2 * e).
Definition zbl (Z1 M1 Z2 M2 E : R) : R :=
  8.4621e-15 * 1e-6 * (Z1 * Z2 * M1) / ((M1 + M2) * (Rpower Z1 0.23 + Rpower Z2 0.23)) * zbl_reduced (zbl_energy Z1 M1 Z2 M2 E) * (N_A / M2).
Lemma zbl_energy_pos Z1 M1 Z2 M2 E : 0 < Z1 -> 0 < M1 -> 0 < Z2 -> 0 < M2 -> 0 < E -> 0 < zbl_energy Z1 M1 Z2 M2 E.
Proof.
  intros. unfold zbl_energy. assert (0 < Rpower Z1 0.23 + Rpower Z2 0.23) by (apply Rplus_lt_0_compat; apply exp_pos).
  apply pos_quot; [apply Rmult_lt_0_compat; [apply Rmult_lt_0_compat; lra|lra]|].
  apply Rmult_lt_0_compat; [|assumption]. apply Rmult_lt_0_compat; [|lra]. apply Rmult_lt_0_compat; assumption.
Qed.
Theorem C59_nuclear p t : 0 < pT p -> 0 < pA p -> 0 < pZ p -> 0 < tA t -> (1 <= tZ t)%Z ->
  dedx_n_t (F:=R) p t = zbl (pZ p) (pA p) (IZR (tZ t)) (tA t) (1000 * pT p * pA p).
Proof.
  intros HT HA HZ HM HZt. assert (ZR : 1 <= IZR (tZ t)) by (apply IZR_le; exact HZt).
  pose proof (zbl_energy_pos (pZ p) (pA p) (IZR (tZ t)) (tA t) (1000 * pT p * pA p) HZ HA ltac:(lra) HM ltac:(apply Rmult_lt_0_compat; lra)) as EP.
  unfold dedx_n_t, zbl. cbv zeta. numR. rewrite !(Rpow_pos (pZ p)), !(Rpow_pos (IZR (tZ t))) by lra.
  change (Rlit 0.23) with 0.23. set (s := Rpower (pZ p) 0.23 + Rpower (IZR (tZ t)) 0.23).
  assert (SP : 0 < s) by (apply Rplus_lt_0_compat; apply exp_pos).
  assert (EE : Rlit 32.53 * tA t * Rlit 1000 * pT p * pA p / (pZ p * IZR (tZ t) * (pA p + tA t) * s) = zbl_energy (pZ p) (pA p) (IZR (tZ t)) (tA t) (1000 * pT p * pA p)).
  { unfold zbl_energy. fold s. change (Rlit 32.53) with 32.53. change (Rlit 1000) with 1000. field. repeat split; try lra. }
  rewrite EE. set (e := zbl_energy _ _ _ _ _) in *. clearbody e s.
  destruct (Rleb_spec e (Rlit 0)) as [L|_]; [exfalso; revert L; dec_norm; lra|]. unfold zbl_reduced. rewrite !(Rpow_pos e) by exact EP.
  change (Rlit 30) with 30. destruct (Rleb_spec e 30) as [L|L]; destruct (Rle_dec e 30) as [L'|L']; try (exfalso; lra).
  - replace (Rlit 0.5) with (/ 2) by (dec_norm; lra). rewrite Rpower_sqrt by exact EP. change (Rlit 0.21226) with 0.21226. change (Rlit 1.1383) with 1.1383. change (Rlit 0.01321) with 0.01321. change (Rlit 0.19593) with 0.19593.
    replace (Rlit 2) with 2 by (dec_norm; lra). set (q := ln (1 + 1.1383 * e) / _). clearbody q. unfold Avogadro, N_A. numR. dec_norm. decs.
    field; repeat split; lra.
  - replace (Rlit 2) with 2 by (dec_norm; lra). set (q := ln e / _). clearbody q. unfold Avogadro, N_A. numR. dec_norm. decs.
    field; repeat split; lra.
Qed.
Print Assumptions C59_nuclear.

(** ** The Barkas factor: Jackson and McCarthy's function, tabulated at 1, 2, 3, 4 and 0.45/sqrt v beyond *)
Definition jackson_mccarthy (v : R) : R :=
  if Rlt_dec v 1 then 0 else if Rle_dec v 2 then 0.33 + (v - 1) * (0.30 - 0.33) else if Rle_dec v 3 then 0.30 + (v - 2) * (0.26 - 0.30)
  else if Rlt_dec v 4 then 0.26 + (v - 3) * (0.23 - 0.26) else 0.45 / sqrt v.
Theorem C59_barkas z eta zt : 0 < zt ->
  let v := eta / (alpha * sqrt zt) in bethek_barkas (F:=R) z eta zt = 1 + 2 * z * jackson_mccarthy v / (v ^ 2 * sqrt zt).
Proof.
  intros HZ v. unfold bethek_barkas. cbv zeta. numR. rewrite alpha_code. fold v. clearbody v. unfold barkas_rows, jackson_mccarthy. cbn [barkas_search].
  unfold fleb, fltb, NumR. replace (lit 4) with 4 by (numR; dec_norm; lra). replace (lit 1) with 1 by (numR; dec_norm; lra). replace (lit 2) with 2 by (numR; dec_norm; lra). replace (lit 3) with 3 by (numR; dec_norm; lra).
  assert (forall a b, a = b -> Rlit 1.0 + Rlit 2.0 * z * a / (v * v * sqrt zt) = 1 + 2 * z * b / (v ^ 2 * sqrt zt)) as H.
  { intros a b ->. replace (v ^ 2) with (v * v) by ring. replace (Rlit 1.0) with 1 by (dec_norm; lra). replace (Rlit 2.0) with 2 by (dec_norm; lra). reflexivity. }
  apply H. clear H. numR.
  destruct (Rleb_spec 4 v), (Rleb_spec 1 v), (Rltb_spec v 4), (Rlt_dec v 1), (Rle_dec v 2), (Rle_dec v 3), (Rlt_dec v 4); try (exfalso; lra); cbn [andb]; try reflexivity.
  all: repeat (case_cmp; try (exfalso; lra)); dec_norm; decs; cbn [andb]; lra.
Qed.
Print Assumptions C59_barkas.

(** ** The Bethe formula with its corrections.
    Energies in MeV, the mean ionisation energy I in eV; the shell correction is Barkas and Berger's *)
Definition mean_energy (t : Target R) (I : R) : R := if Rlt_dec 0 I then I else ipot (tZ t).
Definition shell (eta I : R) : R :=
  1e-6 * I ^ 2 * (0.422377 / eta ^ 2 + 0.0304043 / eta ^ 4 - 0.00038106 / eta ^ 6) + 1e-9 * I ^ 3 * (3.858019 / eta ^ 2 - 0.1667989 / eta ^ 4 + 0.00157955 / eta ^ 6).
Theorem C59_bethe p t c I delta L : 0 < pT p -> 0 < tA t -> (1 <= tZ t)%Z -> 0 < mean_energy t I ->
  let g := lorentz (pT p) in let b := velocity (pT p) in let Zt := IZR (tZ t) in let J := mean_energy t I in let z := z_effective p t c in
  bethek_density_effect b (tZ t) = Ok delta -> precalculated_lindhard p = Ok L ->
  bethek_dedx_e_t (F:=R) p t c I = Ok (
    dedx_constant * z ^ 2 * Zt / (tA t * b ^ 2) *
      ((ln (2 * mec2 * b ^ 2 * g ^ 2 / (1e-6 * J)) - b ^ 2 - (if corr_has c no_shell_correction then 0 else if Rlt_dec (b * g) 0.13 then 0 else shell (b * g) J / Zt))
         * (if corr_has c no_barkas then 1 else bethek_barkas z (b * g) Zt)
       + (if corr_has c no_lindhard then 0 else L) - delta / 2)
    + (if corr_has c no_highenergy then 0 else if Rlt_dec 50000 (pT p) then pair_production p t + bremsstrahlung p t else 0)).
Proof.
  intros HT HM HZ HJ g b Zt J z HD HL. pose proof (lorentz_gt _ HT) as G. destruct (velocity_sq _ HT) as [BS BP]. fold g in G, BS. fold b in BS, BP.
  assert (ZR : 1 <= Zt) by (apply IZR_le; exact HZ).
  unfold bethek_dedx_e_t. cbv zeta. fold z. replace (fadd (lit 1.0) (fdiv (pT p) atomic_mass_unit)) with g by (symmetry; apply gamma_code).
  assert (B2 : fsub (lit 1.0) (fdiv (lit 1.0) (fmul g g)) = b * b).
  { rewrite BS. numR. replace (Rlit 1.0) with 1 by (dec_norm; lra). replace (g ^ 2) with (g * g) by ring. reflexivity. }
  rewrite B2. numR. rewrite (sqrt_square b) by lra. fold Zt. rewrite HD. cbn [bind].
  destruct (Reqb_spec (pT p) (Rlit 0)) as [E|_]; [exfalso; revert E; dec_norm; lra|].
  replace (if Rltb (Rlit 0.0) I then I else ipot (tZ t)) with J.
  2:{ unfold J, mean_energy. replace (Rlit 0.0) with 0 by (dec_norm; lra). destruct (Rlt_dec 0 I), (Rltb_spec 0 I); try reflexivity; exfalso; lra. }
  change (0 < J) in HJ. clearbody J g b Zt z.
  assert (LN : ln (Rlit 2.0 * electron_mass * Rlit 1000000 * (b * b) / J) + (Rlit 2 * ln g - b * b) = ln (2 * mec2 * b ^ 2 * g ^ 2 / (1e-6 * J)) - b ^ 2).
  { replace (electron_mass (F:=R)) with mec2 by (symmetry; apply C59_constants). replace (Rlit 2.0) with 2 by (dec_norm; lra). replace (Rlit 2) with 2 by (dec_norm; lra). replace (Rlit 1000000) with 1000000 by (dec_norm; lra).
    assert (MP : 0 < mec2) by (unfold mec2; lra).
    replace (2 * mec2 * b ^ 2 * g ^ 2 / (1e-6 * J)) with (2 * mec2 * 1000000 * (b * b) / J * (g * g)) by (decs; field; repeat split; lra).
    rewrite (ln_mult _ (g * g)); [rewrite (ln_mult g g) by lra; ring| |nra]. apply pos_quot; [|exact HJ]. apply Rmult_lt_0_compat; [lra|nra]. }
  assert (SH : (if negb (corr_has c no_shell_correction) && Rleb (Rlit 0.13) (b * g) then
      ln (Rlit 2.0 * electron_mass * Rlit 1000000 * (b * b) / J) - ((Rlit 0.422377 * Rpow_c (b * g) (Rlit (-2)) + Rlit 0.0304043 * Rpow_c (b * g) (Rlit (-4)) - Rlit 0.00038106 * Rpow_c (b * g) (Rlit (-6))) * Rlit 1e-6 * Rpow_c J (Rlit 2)
         + (Rlit 3.858019 * Rpow_c (b * g) (Rlit (-2)) - Rlit 0.1667989 * Rpow_c (b * g) (Rlit (-4)) + Rlit 0.00157955 * Rpow_c (b * g) (Rlit (-6))) * Rlit 1.0e-9 * Rpow_c J (Rlit 3)) / Zt
      else ln (Rlit 2.0 * electron_mass * Rlit 1000000 * (b * b) / J))
    = ln (Rlit 2.0 * electron_mass * Rlit 1000000 * (b * b) / J) - (if corr_has c no_shell_correction then 0 else if Rlt_dec (b * g) 0.13 then 0 else shell (b * g) J / Zt)).
  { destruct (corr_has c no_shell_correction); cbn [negb andb]; [ring|]. change (Rlit 0.13) with 0.13. destruct (Rleb_spec 0.13 (b * g)) as [L1|L1], (Rlt_dec (b * g) 0.13) as [L3|L3]; try (exfalso; lra); [|ring].
    assert (EP : 0 < b * g) by (apply Rmult_lt_0_compat; lra). f_equal. f_equal.
    rewrite (pow_neg (b * g) 2 (Rlit (-2))), (pow_neg (b * g) 4 (Rlit (-4))), (pow_neg (b * g) 6 (Rlit (-6))), (pow_int J 2 (Rlit 2)), (pow_int J 3 (Rlit 3)) by (try assumption; dec_norm; cbn [INR]; lra).
    unfold shell. set (e := b * g) in *. clearbody e. dec_norm. decs. field. lra. }
  rewrite SH. clear SH. set (sh := if corr_has c no_shell_correction then 0 else _). clearbody sh. set (l := ln (Rlit 2.0 * _ * _ * _ / _)) in *. clearbody l.
  replace (l - sh + (Rlit 2 * ln g - b * b)) with (ln (2 * mec2 * b ^ 2 * g ^ 2 / (1e-6 * J)) - b ^ 2 - sh) by lra.
  set (f := ln (2 * mec2 * b ^ 2 * g ^ 2 / (1e-6 * J)) - b ^ 2 - sh). clearbody f.
  replace (Rlit 1.0) with 1 by (dec_norm; lra). replace (Rlit 0.0) with 0 by (dec_norm; lra). replace (Rlit 2.0) with 2 by (dec_norm; lra). replace (Rlit 2) with 2 by (dec_norm; lra). rewrite pow_two.
  replace (if negb (corr_has c no_barkas) then bethek_barkas z (b * g) Zt else 1) with (if corr_has c no_barkas then 1 else bethek_barkas z (b * g) Zt) by (destruct (corr_has c no_barkas); reflexivity).
  replace (if negb (corr_has c no_lindhard) then precalculated_lindhard p else Ok 0) with (Ok (if corr_has c no_lindhard then 0 else L)) by (destruct (corr_has c no_lindhard); cbn [negb]; congruence).
  cbn [bind]. set (B := if corr_has c no_barkas then _ else _). set (LL := if corr_has c no_lindhard then _ else _). clearbody B LL. f_equal.
  assert (M : (f * B + LL - delta / 2) * (dedx_constant * z ^ 2 * Zt / (b * b * tA t)) = dedx_constant * z ^ 2 * Zt / (tA t * b ^ 2) * (f * B + LL - delta / 2)) by (field; lra).
  rewrite M. set (m := dedx_constant * z ^ 2 * Zt / (tA t * b ^ 2) * _). clearbody m.
  change (Rlit 50000.0) with 50000.0. destruct (Rltb_spec 50000.0 (pT p)) as [L1|L1], (Rlt_dec 50000 (pT p)) as [L3|L3]; try (exfalso; revert L1; decs; lra); destruct (corr_has c no_highenergy); cbn [negb andb]; ring.
Qed.
Print Assumptions C59_bethe.

(** ** Pair production and bremsstrahlung *)
Theorem C59_pair_production p t : 0 < pT p -> 0 < tA t -> (1 <= tZ t)%Z ->
  let g := lorentz (pT p) in let Z2 := IZR (tZ t) in let pi2 := PI_ (F:=R) ^ 2 in
  let screen := 183 / Rpower Z2 (1 / 3) in
  let L0 := 19 / 9 * ln (screen / (1 + 25.018803808 * screen / g)) in
  let L1 := 4178 / (81 * pi2) - 21 / 27 - 248 * ln (2 * g) / (27 * pi2) - (28 * ln (2 * g) / 9 - 446 / 27) * ln g / pi2 + 14 * ln g ^ 2 / (9 * pi2) in
  pair_production (F:=R) p t = Rmax 0 (dedx_constant / 4 * (alpha * pZ p * Z2) ^ 2 * (1 + 1 / Z2) / tA t * g * (L0 + L1 / sqrt g)).
Proof.
  intros HT HM HZ g Z2 pi2 screen L0 L1. pose proof (lorentz_gt _ HT) as G. fold g in G. assert (ZR : 1 <= Z2) by (apply IZR_le; exact HZ).
  unfold pair_production. cbv zeta. replace (fadd (lit 1.0) (fdiv (pT p) atomic_mass_unit)) with g by (symmetry; apply gamma_code). numR. fold Z2. rewrite alpha_code.
  assert (SG : 0 < sqrt g) by (apply sqrt_lt_R0; lra). assert (SS : sqrt g * sqrt g = g) by (apply sqrt_sqrt; lra).
  assert (D : ln (Rlit 1.0 / sqrt g * (Rlit 1.0 / sqrt g)) = - ln g).
  { replace (Rlit 1.0) with 1 by (dec_norm; lra). replace (1 / sqrt g * (1 / sqrt g)) with (/ (sqrt g * sqrt g)) by (field; lra). rewrite SS. apply ln_Rinv. lra. }
  rewrite D. assert (SCR : Rlit 183.0 * power Z2 (Rlit (-1.0) / Rlit 3.0) = screen).
  { unfold power, screen, Rpower. numR. replace (Rlit (-1.0) / Rlit 3.0) with (- (1 / 3)) by (dec_norm; field). replace (ln Z2 * - (1 / 3)) with (- (1 / 3 * ln Z2)) by ring. rewrite exp_Ropp. replace (Rlit 183.0) with 183 by (dec_norm; lra). reflexivity. }
  rewrite SCR. clear D SCR. replace (Rlit 1.0) with 1 by (dec_norm; lra). replace (Rlit 2.0) with 2 by (dec_norm; lra). change (Rlit 25.018803808) with 25.018803808.
  replace (Rlit 19.0 / Rlit 9.0) with (19 / 9) by (dec_norm; field). fold L0. clearbody L0. set (l := ln (2 * g)) in *. set (k := ln g) in *.
  assert (PP : 0 < PI_ (F:=R)) by (unfold PI_; numR; dec_norm; lra). unfold pi2 in L1. set (pi := PI_ (F:=R)) in *. clearbody pi.
  assert (E1 : Rlit 4178.0 / (Rlit 81.0 * pi * pi) - Rlit 21.0 / Rlit 27.0 - Rlit 248.0 * l / (Rlit 27.0 * pi * pi) + (Rlit 28.0 * l / Rlit 9.0 - Rlit 446.0 / Rlit 27.0) * - k / (pi * pi) + Rlit 14.0 * - k * - k / (Rlit 9.0 * pi * pi) = L1).
  { unfold L1. dec_norm. field. lra. }
  rewrite E1. clearbody L1 g Z2. clear E1. replace (Rlit 0.25) with (/ 4) by (dec_norm; lra).
  set (s := / 4 * dedx_constant * alpha * alpha * pZ p * pZ p * Z2 * Z2 * g * (1 + 1 / Z2) * (L0 + L1 * (1 / sqrt g)) / tA t).
  replace (dedx_constant / 4 * (alpha * pZ p * Z2) ^ 2 * (1 + 1 / Z2) / tA t * g * (L0 + L1 / sqrt g)) with s by (unfold s; field; repeat split; lra). clearbody s.
  replace (Rlit 0.0) with 0 by (dec_norm; lra). destruct (Rltb_spec s 0); [rewrite Rmax_left by lra|rewrite Rmax_right by lra]; reflexivity.
Qed.
Print Assumptions C59_pair_production.

Theorem C59_bremsstrahlung p t : 0 < pT p -> 0 < pA p -> 0 < tA t -> (1 <= tZ t)%Z ->
  let g := lorentz (pT p) in let hbarc := hbar * c_light / 10 in let radii := 1.18 * (Rpower (pA p) (1 / 3) + Rpower (tA t) (1 / 3)) in let mass := amu * pA p in
  bremsstrahlung (F:=R) p t = 16 / 3 * (dedx_constant / (4 * PI_)) * alpha * (mec2 / mass) * (pZ p ^ 4 * IZR (tZ t) ^ 2 / tA t) * g * ln (1 + 2 * g * hbarc / (mass * radii)).
Proof.
  intros HT HA HM HZ g hbarc radii mass. pose proof (lorentz_gt _ HT) as G. fold g in G. pose proof amu_pos as U.
  unfold bremsstrahlung. cbv zeta. replace (fadd (lit 1.0) (fdiv (pT p) atomic_mass_unit)) with g by (symmetry; apply gamma_code). numR. rewrite alpha_code, amu_code.
  replace (electron_mass (F:=R)) with mec2 by (symmetry; apply C59_constants).
  assert (RD : Rlit 1.18 * (power (pA p) (Rlit 1.0 / Rlit 3.0) + power (tA t) (Rlit 1.0 / Rlit 3.0)) = radii).
  { unfold power, radii, Rpower. numR. replace (Rlit 1.0 / Rlit 3.0) with (1 / 3) by (dec_norm; field). rewrite !(Rmult_comm (ln _)). reflexivity. }
  rewrite RD. assert (RP : 0 < radii).
  { unfold radii. apply Rmult_lt_0_compat; [lra|]. apply Rplus_lt_0_compat; apply exp_pos. }
  assert (PP : 0 < PI_ (F:=R)) by (unfold PI_; numR; dec_norm; lra). clearbody g radii. unfold mass, hbarc. clear RD. set (h := hbar (F:=R)). set (cl := c_light (F:=R)). set (pi := PI_ (F:=R)) in *. clearbody h cl pi.
  replace (Rlit 2.0 * g * Rlit 0.1 * h * cl / amu / radii / pA p) with (2 * g * (h * cl / 10) / (amu * pA p * radii)) by (dec_norm; field; repeat split; lra).
  set (l := ln _). clearbody l. set (K := dedx_constant (F:=R)). clearbody K. dec_norm. field. repeat split; lra.
Qed.
Print Assumptions C59_bremsstrahlung.

(** ** Straggling: 4 pi N_A r_e^2 (m_e c^2)^2 z^2 (Z/A) (gamma^2 X + shell term), at most Firsov's value below 30 MeV/u *)
Definition firsov (Z1 Z2 M2 b : R) : R := 4.8184e-3 * Rpower (Z1 + Z2) (8 / 3) / M2 * (b / alpha) ^ 2.
Theorem C59_variance p t c X : 0 < pT p -> 0 < tA t -> 0 < pZ p -> (1 <= tZ t)%Z -> precalculated_lindhard_X p = Ok X ->
  let g := lorentz (pT p) in let b := velocity (pT p) in let Z2 := IZR (tZ t) in
  let w := 2e6 * mec2 * b ^ 2 in
  let shells := if (c_calc c =? 0)%Z then Rmax 0 (2 * 24.89 * Rpower Z2 1.2324 / w * ln (w / (33.05 * Rpower Z2 1.6364))) else 0 in
  let omega2 := dedx_constant * mec2 * z_effective p t c ^ 2 * Z2 / tA t * (g ^ 2 * X + shells) in
  dedx_variance (F:=R) p t c = Ok (if Rlt_dec (pT p) 30 then Rmin omega2 (firsov (pZ p) Z2 (tA t) b) else omega2).
Proof.
  intros HT HM HZp HZ HX g b Z2 w shells omega2. pose proof (lorentz_gt _ HT) as G. destruct (velocity_sq _ HT) as [BS BP]. fold g in G, BS. fold b in BS, BP. assert (ZR : 1 <= Z2) by (apply IZR_le; exact HZ).
  assert (MP : 0 < mec2) by (unfold mec2; lra). assert (AP : 0 < alpha) by (unfold alpha; lra).
  unfold dedx_variance. cbv zeta. rewrite HX. cbn [bind]. f_equal. rewrite gamma_code, beta_code. fold g b. numR. fold Z2. rewrite !ipow_two. numR.
  unfold energy_straggling_firsov. cbv zeta. rewrite gamma_code. fold g. numR. rewrite alpha_code.
  replace (electron_mass (F:=R)) with mec2 by (symmetry; apply C59_constants). replace (Rlit 1.0) with 1 by (dec_norm; lra). replace (1 / (g * g)) with (1 / g ^ 2) by (f_equal; ring). rewrite <- BS.
  rewrite !fmaxR, !fminR. rewrite !Rpow_pos by lra. replace (Rlit 0.0) with 0 by (dec_norm; lra). replace (Rlit 0) with 0 by (dec_norm; lra).
  assert (CO : (if (c_calc c =? omega_atima)%Z then Rmax (Rlit 24.89 * Rpower Z2 (Rlit 1.2324) / (mec2 * Rlit 1e6 * (b * b)) * ln (Rlit 2.0 * mec2 * Rlit 1e6 * (b * b) / (Rlit 33.05 * Rpower Z2 (Rlit 1.6364)))) 0 else 0) = shells).
  { unfold shells, omega_atima. destruct (c_calc c =? 0)%Z; [|reflexivity]. rewrite Rmax_comm. f_equal. change (Rlit 1.2324) with 1.2324. change (Rlit 1.6364) with 1.6364. change (Rlit 33.05) with 33.05.
    assert (W : Rlit 2.0 * mec2 * Rlit 1e6 * (b * b) = w) by (unfold w; dec_norm; decs; field). rewrite W. set (l := ln _). set (r := Rpower _ _). clearbody l r. unfold w. dec_norm. decs. field. repeat split; lra. }
  rewrite CO. clearbody shells. assert (FI : Rlit 4.8184E-3 * Rpower (pZ p + Z2) (Rlit 8.0 / Rlit 3.0) / tA t * (b * b) / alpha / alpha = firsov (pZ p) Z2 (tA t) b).
  { unfold firsov. replace (Rlit 8.0 / Rlit 3.0) with (8 / 3) by (dec_norm; field). set (r := Rpower _ _). clearbody r. dec_norm. decs. field. split; lra. }
  rewrite FI. assert (OM : domega2dx_constant * (z_effective p t c * z_effective p t c) * Z2 / tA t * (X * (g * g) + shells) = omega2).
  { unfold omega2. replace (domega2dx_constant (F:=R)) with (dedx_constant * mec2) by (symmetry; apply C59_constants). field. lra. }
  rewrite OM. change (Rlit 30.0) with 30.0. destruct (Rltb_spec (pT p) 30.0) as [L1|L1], (Rlt_dec (pT p) 30) as [L3|L3]; try reflexivity; exfalso; revert L1; decs; lra.
Qed.
Print Assumptions C59_variance.

(** ** Scattering power: (Es z / p v)^2 / X0, with Es^2 = 2 pi/alpha (m_e c^2)^2 (Rossi) or (14.1 MeV)^2,
    p v = A T (T + 2u)/(T + u) *)
Definition momentum_velocity (A T : R) : R := A * (T * (T + 2 * amu)) / (T + amu).
Theorem C59_scattering p m c X0 : 0 < pT p -> 0 < pA p -> radiation_length m = Ok X0 -> 0 < X0 ->
  let Es2 := if ((c_scat c =? 0) || (c_scat c =? 1))%Z then Es_squared else 14.1 ^ 2 in
  da2dx (F:=R) p m c = Ok (c_sfac c * (Es2 * pZ p ^ 2 / momentum_velocity (pA p) (pT p) ^ 2 / X0)).
Proof.
  intros HT HA HX XP Es2. unfold da2dx, angular_scattering_power. cbv zeta. rewrite HX. cbn [bind]. pose proof amu_pos as U.
  destruct (fleb (pT p) (lit 0)) eqn:E; [exfalso; revert E; numR; rewrite Rleb_true; dec_norm; lra|]. clear E. cbn [bind]. f_equal. numR. f_equal.
  assert (SE : scattering_Es2 c = Es2).
  { unfold scattering_Es2, Es2, sc_fermi_rossi, sc_dhighland. destruct (c_scat c =? 0)%Z, (c_scat c =? 1)%Z; cbn [orb]; try reflexivity. numR. dec_norm. decs. lra. }
  rewrite SE. clearbody Es2. clear SE. unfold p_from_T. rewrite !ipow_two. numR. rewrite amu_code. replace (Rlit 2) with 2 by (dec_norm; lra).
  set (q := pT p * (pT p + 2 * amu)). assert (QP : 0 < q) by (unfold q; apply Rmult_lt_0_compat; lra).
  assert (SQ : sqrt q * sqrt q = q) by (apply sqrt_sqrt; lra).
  unfold momentum_velocity. fold q.
  replace (sqrt q * pA p * (sqrt q * pA p / ((pT p + amu) * pA p))) with (pA p * q / (pT p + amu)) by (rewrite <- SQ at 1; field; repeat split; lra).
  field. repeat split; lra.
Qed.
Print Assumptions C59_scattering.

(** the version for a single element uses the element's radiation length; a material of that element alone gives the same *)
Theorem C59_scattering_element p t Es2 X0 : 0 < pT p -> 0 < pA p -> radiation_length_z (tZ t) (tA t) = Ok X0 -> 0 < X0 ->
  angular_scattering_power_t (F:=R) p t Es2 = Ok (Es2 * pZ p ^ 2 / momentum_velocity (pA p) (pT p) ^ 2 / X0) /\
  (forall m, radiation_length m = Ok X0 -> angular_scattering_power p m Es2 = angular_scattering_power_t p t Es2).
Proof.
  intros HT HA HX XP. unfold angular_scattering_power_t, angular_scattering_power. cbv zeta. rewrite HX. cbn [bind]. pose proof amu_pos as U.
  destruct (fleb (pT p) (lit 0)) eqn:E; [exfalso; revert E; numR; rewrite Rleb_true; dec_norm; lra|]. clear E. split; [|intros m ->; reflexivity]. f_equal. unfold p_from_T. rewrite !ipow_two. numR. rewrite amu_code. replace (Rlit 2) with 2 by (dec_norm; lra).
  set (q := pT p * (pT p + 2 * amu)). assert (QP : 0 < q) by (unfold q; apply Rmult_lt_0_compat; lra).
  assert (SQ : sqrt q * sqrt q = q) by (apply sqrt_sqrt; lra).
  unfold momentum_velocity. fold q.
  replace (sqrt q * pA p * (sqrt q * pA p / ((pT p + amu) * pA p))) with (pA p * q / (pT p + amu)) by (rewrite <- SQ at 1; field; repeat split; lra).
  field. repeat split; lra.
Qed.
Print Assumptions C59_scattering_element.
(** the reduced energy is that of Ziegler, Biersack and Littmark *)
Theorem C59_reduced_energy p t : 0 < pA p -> 0 < pZ p -> 0 < tA t -> (1 <= tZ t)%Z ->
  reduced_energy_loss_unit (F:=R) p t = zbl_energy (pZ p) (pA p) (IZR (tZ t)) (tA t) (1000 * pT p * pA p).
Proof.
  intros HA HZ HM HZt. assert (ZR : 1 <= IZR (tZ t)) by (apply IZR_le; exact HZt). unfold reduced_energy_loss_unit, zbl_energy. cbv zeta. numR. rewrite !(Rpow_pos (pZ p)), !(Rpow_pos (IZR (tZ t))) by lra.
  change (Rlit 0.23) with 0.23. set (s := Rpower (pZ p) 0.23 + Rpower (IZR (tZ t)) 0.23). assert (SP : 0 < s) by (apply Rplus_lt_0_compat; apply exp_pos).
  change (Rlit 32.53) with 32.53. change (Rlit 1000) with 1000. field. repeat split; lra.
Qed.
Print Assumptions C59_reduced_energy.

(** ** Radiation length: the values of the Particle Data Group, and the harmonic mean over a material *)
Definition pdg_lengths : list (Z * R) :=
  [(1%Z, 63.04); (2%Z, 94.32); (3%Z, 82.78); (4%Z, 65.19); (6%Z, 42.7); (7%Z, 37.99); (8%Z, 34.24); (9%Z, 32.93); (10%Z, 28.94); (13%Z, 24.01); (14%Z, 21.82); (17%Z, 19.28);
   (18%Z, 19.55); (22%Z, 16.16); (26%Z, 13.84); (29%Z, 12.86); (32%Z, 12.25); (50%Z, 8.82); (54%Z, 8.48); (74%Z, 6.76); (78%Z, 6.54); (79%Z, 6.46); (82%Z, 6.37); (92%Z, 6.00)].
Theorem C46_tabulated z x m : In (z, x) pdg_lengths -> radiation_length_z (F:=R) z m = Ok x.
Proof.
  intros H. unfold pdg_lengths in H. repeat (apply in_inv in H; destruct H as [H|H]; [apply pair_equal_spec in H; destruct H as [<- <-]; reflexivity|]). destruct H.
Qed.
Print Assumptions C46_tabulated.
Lemma harmonic_sum (w X : Target R -> R) l : (forall t, In t l -> radiation_length_z (tZ t) (tA t) = Ok (X t)) ->
  forall b, ofold (fun sum t => r <- radiation_length_z (tZ t) (tA t) ;; Ok (fadd sum (fdiv (w t) r))) l b = Ok (b + Rsum (map (fun t => w t / X t) l)).
Proof.
  induction l as [|t l IH]; intros H b; cbn [ofold map].
  - unfold Rsum. cbn [fold_right]. f_equal. ring.
  - rewrite (H t (or_introl eq_refl)). cbn [bind]. rewrite (IH (fun u U => H u (or_intror U))). unfold Rsum. cbn [fold_right]. numR. f_equal. ring.
Qed.
Theorem C46_harmonic m (X : Target R -> R) : (forall t, In t (m_atoms m) -> radiation_length_z (tZ t) (tA t) = Ok (X t)) ->
  radiation_length (F:=R) m = Ok (1 / Rsum (map (fun t => wfrac m t / X t) (m_atoms m))).
Proof.
  intros H. unfold radiation_length. rewrite (harmonic_sum (wfrac m) X _ H). cbn [bind]. f_equal. numR. replace (Rlit 1) with 1 by (dec_norm; lra). replace (Rlit 0) with 0 by (dec_norm; lra). f_equal. ring.
Qed.
Print Assumptions C46_harmonic.

(** ** Effective charges *)
Theorem C59_pierce_blann p t c : 0 < pZ p -> c_zeff c = 1%Z ->
  z_effective (F:=R) p t c = pZ p * (1 - exp (- (0.95 * (velocity (pT p) / alpha) / Rpower (pZ p) (2 / 3)))).
Proof.
  intros HZ HC. unfold z_effective. rewrite HC. cbn [Z.eqb Pos.eqb z_none z_pierce_blann]. cbv zeta.
  change (fsqrt (fsub (lit 1.0) (fdiv (lit 1.0) (fmul (fadd (lit 1.0) (fdiv (pT p) atomic_mass_unit)) (fadd (lit 1.0) (fdiv (pT p) atomic_mass_unit)))))) with (beta_from_T (pT p)). rewrite beta_code.
  unfold z_eff_Pierce_Blann. rewrite alpha_inv. numR. rewrite Rpow_pos by exact HZ. replace (Rlit 2.0 / Rlit 3.0) with (2 / 3) by (dec_norm; field). set (r := Rpower _ _). assert (RP : 0 < r) by apply exp_pos. clearbody r. set (b := velocity _). clearbody b.
  unfold alpha. f_equal. replace (Rlit 1.0) with 1 by (dec_norm; lra). f_equal. f_equal. dec_norm. decs. field. lra.
Qed.
Print Assumptions C59_pierce_blann.

(** Anthony and Landford: the same with target dependent parameters *)
Theorem C59_anthony p t c : 0 < pZ p -> c_zeff c = 2%Z -> let Z2 := IZR (tZ t) in
  z_effective (F:=R) p t c = pZ p * (1 - (1.16 - 1.91e-3 * Z2 + 1.26e-5 * Z2 ^ 2) * exp (- ((1.18 - 7.5e-3 * Z2 + 4.53e-5 * Z2 ^ 2) * (velocity (pT p) / alpha) / Rpower (pZ p) (2 / 3)))).
Proof.
  intros HZ HC Z2. unfold z_effective. rewrite HC. cbn [Z.eqb Pos.eqb z_none z_pierce_blann z_anthony_landorf]. cbv zeta.
  change (fsqrt (fsub (lit 1.0) (fdiv (lit 1.0) (fmul (fadd (lit 1.0) (fdiv (pT p) atomic_mass_unit)) (fadd (lit 1.0) (fdiv (pT p) atomic_mass_unit)))))) with (beta_from_T (pT p)). rewrite beta_code.
  unfold z_eff_Anthony_Landford. cbv zeta. rewrite alpha_inv. numR. fold Z2. clearbody Z2. rewrite Rpow_pos by exact HZ. replace (Rlit 2.0 / Rlit 3.0) with (2 / 3) by (dec_norm; field). set (r := Rpower _ _). assert (RP : 0 < r) by apply exp_pos. clearbody r. set (b := velocity _). clearbody b.
  unfold alpha. f_equal. replace (Rlit 1.0) with 1 by (dec_norm; lra). f_equal. f_equal; [dec_norm; decs; lra|]. f_equal. dec_norm. decs. field. lra.
Qed.
Print Assumptions C59_anthony.

(** Hubert, Bimbot and Gauvin: 1 - x1 exp(-x2 E^x3 Z^-x4) from 2.5 MeV/u, with special parameters for beryllium and carbon *)
Definition hubert_parameters (Z1 : R) (Z2 : Z) : R * R * R * R :=
  if (Z2 =? 4)%Z then (2.045 + 2 * exp (- 0.04369 * Z1), 7.0, 0.2643, 0.4171)
  else if (Z2 =? 6)%Z then (2.584 + 1.91 * exp (- 0.03958 * Z1), 6.933, 0.2433, 0.3969)
  else (1.164 + 0.2319 * exp (- 0.004302 * IZR Z2) + 1.658 * exp (- 0.0517 * Z1), 8.144 + 0.09876 * ln (IZR Z2), 0.314 + 0.01072 * ln (IZR Z2), 0.5218 + 0.02521 * ln (IZR Z2)).
Theorem C59_hubert p t c : 0 < pZ p -> 2.5 <= pT p -> c_zeff c = 3%Z ->
  let '(x1, x2, x3, x4) := hubert_parameters (pZ p) (tZ t) in
  z_effective (F:=R) p t c = pZ p * (1 - x1 * exp (- (x2 * Rpower (pT p) x3 / Rpower (pZ p) x4))).
Proof.
  intros HZ HE HC. assert (TP : 0 < pT p) by (revert HE; decs; lra). unfold hubert_parameters. set (Z1 := pZ p) in *.
  assert (G : forall x1 x2 x3 x4, Z1 * (1 - x1 * exp (- x2 * Rpow_c (pT p) x3 * Rpow_c Z1 (- x4))) = Z1 * (1 - x1 * exp (- (x2 * Rpower (pT p) x3 / Rpower Z1 x4)))).
  { intros. rewrite !Rpow_pos by assumption. f_equal. f_equal. f_equal. f_equal. rewrite Rpower_Ropp. unfold Rdiv. ring. }
  unfold z_effective. rewrite HC. cbn [Z.eqb Pos.eqb z_none z_pierce_blann z_anthony_landorf z_hubert]. cbv zeta. fold Z1.
  unfold z_eff_Hubert. cbv zeta. numR. destruct (Rltb_spec (pT p) (Rlit 2.5)) as [L|_]; [exfalso; revert L HE; dec_norm; decs; lra|].
  replace (Rlit 1) with 1 by (dec_norm; lra).
  destruct (Z.eqb_spec (tZ t) 4) as [E4|E4].
  - rewrite E4. destruct (Reqb_spec 4 (Rlit 4)) as [_|N]; [|exfalso; apply N; dec_norm; lra]. rewrite G. replace (Rlit (-0.04369) * Z1) with (- 0.04369 * Z1) by (dec_norm; decs; lra). replace (Rlit 2.0) with 2 by (dec_norm; lra). reflexivity.
  - destruct (Reqb_spec (IZR (tZ t)) (Rlit 4)) as [E|_]; [exfalso; apply E4; apply eq_IZR; rewrite E; dec_norm; lra|].
    destruct (Z.eqb_spec (tZ t) 6) as [E6|E6].
    + rewrite E6. destruct (Reqb_spec 6 (Rlit 6)) as [_|N]; [|exfalso; apply N; dec_norm; lra]. rewrite G. replace (Rlit (-0.03958) * Z1) with (- 0.03958 * Z1) by (dec_norm; decs; lra). reflexivity.
    + destruct (Reqb_spec (IZR (tZ t)) (Rlit 6)) as [E|_]; [exfalso; apply E6; apply eq_IZR; rewrite E; dec_norm; lra|].
      rewrite G. replace (Rlit (-0.004302) * IZR (tZ t)) with (- 0.004302 * IZR (tZ t)) by (dec_norm; decs; lra). replace (Rlit (-0.0517) * Z1) with (- 0.0517 * Z1) by (dec_norm; decs; lra). reflexivity.
Qed.
Print Assumptions C59_hubert.

(** Winger: a quartic in x = (v / 0.012 c) Z^-0.45 in the exponent; hydrogen and helium targets count as Z = 2.6 and 2.8 *)
Theorem C59_winger p t c : 0 < pZ p -> c_zeff c = 4%Z ->
  let l := ln (pZ p) in let k := ln (if (tZ t =? 1)%Z then 2.6 else if (tZ t =? 2)%Z then 2.8 else IZR (tZ t)) in
  let x := velocity (pT p) / (0.012 * Rpower (pZ p) 0.45) in
  let a := 0.5491 * exp (0.7028 * l - 0.1089 * l ^ 2 + 0.001644 * l ^ 3 - 0.5155 * k + 0.05633 * k ^ 2) in
  let b := 0.005447 * exp (0.8795 * l - 1.091 * k) in
  let d := 0.0008261 * exp (2.848 * l - 0.2442 * l ^ 3) in
  z_effective (F:=R) p t c = pZ p * (1 - exp (- 0.4662 - a * x + b * x ^ 2 - d * x ^ 3 - 0.00009293 * x ^ 4)).
Proof.
  intros HZ HC l k x a b d. unfold z_effective. rewrite HC. cbn [Z.eqb Pos.eqb z_none z_pierce_blann z_anthony_landorf z_hubert z_winger]. cbv zeta.
  change (fsqrt (fsub (lit 1.0) (fdiv (lit 1.0) (fmul (fadd (lit 1.0) (fdiv (pT p) atomic_mass_unit)) (fadd (lit 1.0) (fdiv (pT p) atomic_mass_unit)))))) with (beta_from_T (pT p)). rewrite beta_code.
  unfold z_eff_Winger. cbv zeta. numR. fold l. rewrite Rpow_pos by exact HZ. change (Rlit 0.45) with 0.45.
  assert (K : ln (if Reqb (if Reqb (IZR (tZ t)) (Rlit 1) then Rlit 2.6 else IZR (tZ t)) (Rlit 2) then Rlit 2.8 else if Reqb (IZR (tZ t)) (Rlit 1) then Rlit 2.6 else IZR (tZ t)) = k).
  { unfold k. f_equal. destruct (Z.eqb_spec (tZ t) 1) as [E|E].
    - rewrite E. destruct (Reqb_spec 1 (Rlit 1)) as [_|N]; [|exfalso; apply N; dec_norm; lra]. destruct (Reqb_spec (Rlit 2.6) (Rlit 2)) as [N|_]; [exfalso; revert N; dec_norm; lra|reflexivity].
    - destruct (Reqb_spec (IZR (tZ t)) (Rlit 1)) as [N|_]; [exfalso; apply E; apply eq_IZR; rewrite N; dec_norm; lra|].
      destruct (Z.eqb_spec (tZ t) 2) as [E2|E2].
      + rewrite E2. destruct (Reqb_spec 2 (Rlit 2)) as [_|N]; [reflexivity|exfalso; apply N; dec_norm; lra].
      + destruct (Reqb_spec (IZR (tZ t)) (Rlit 2)) as [N|_]; [exfalso; apply E2; apply eq_IZR; rewrite N; dec_norm; lra|reflexivity]. }
  rewrite K. clearbody k. clear K.
  assert (RP : 0 < Rpower (pZ p) 0.45) by apply exp_pos. assert (XX : velocity (pT p) / Rlit 0.012 / Rpower (pZ p) 0.45 = x).
  { unfold x. set (r := Rpower _ _) in *. clearbody r. dec_norm. decs. field. lra. }
  rewrite XX. clearbody x.
  replace (Rlit 0.7028 * l - Rlit 0.1089 * l * l + Rlit 0.001644 * l * l * l - Rlit 0.5155 * k + Rlit 0.05633 * k * k) with (0.7028 * l - 0.1089 * l ^ 2 + 0.001644 * l ^ 3 - 0.5155 * k + 0.05633 * k ^ 2) by (dec_norm; decs; field).
  replace (Rlit 0.8795 * l - Rlit 1.091 * k) with (0.8795 * l - 1.091 * k) by (dec_norm; decs; field).
  replace (Rlit 2.848 * l - Rlit 0.2442 * l * l * l) with (2.848 * l - 0.2442 * l ^ 3) by (dec_norm; decs; field).
  unfold a, b, d. set (ea := exp (0.7028 * l - _ + _ - _ + _)). set (eb := exp (0.8795 * l - _)). set (ed := exp (2.848 * l - _)). clearbody ea eb ed.
  replace (Rlit 1) with 1 by (dec_norm; lra). f_equal. f_equal. f_equal. dec_norm. decs. field.
Qed.
Print Assumptions C59_winger.

(** Schiwietz and Grande, with the Bohr velocity 2.19 mm/ns *)
Theorem C59_schiwietz p t c : 0 < pT p -> 0 < pZ p -> (1 <= tZ t)%Z -> c_zeff c = 5%Z ->
  let Z2 := IZR (tZ t) in let v := velocity (pT p) * 299.792458 / 2.19 / Rpower (pZ p) 0.543 in
  let x := (1 - 0.26 * exp (- Z2 / 11) * exp (- (Z2 - pZ p) ^ 2 / 9)) * Rpower (v / (1 + 0.03 * v * ln Z2) / 1.54) (1 + 1.83 / pZ p) in
  z_effective (F:=R) p t c = pZ p * (8.29 * x + x ^ 4) / (0.06 / x + 4 + 7.4 * x + x ^ 4).
Proof.
  intros HT HZ HZ2 HC Z2 v x. destruct (velocity_sq _ HT) as [_ BP]. assert (ZR : 1 <= Z2) by (apply IZR_le; exact HZ2). unfold z_effective. rewrite HC. cbn [Z.eqb Pos.eqb z_none z_pierce_blann z_anthony_landorf z_hubert z_winger z_global z_atima14 z_schiwietz]. cbv zeta.
  change (fsqrt (fsub (lit 1.0) (fdiv (lit 1.0) (fmul (fadd (lit 1.0) (fdiv (pT p) atomic_mass_unit)) (fadd (lit 1.0) (fdiv (pT p) atomic_mass_unit)))))) with (beta_from_T (pT p)). rewrite beta_code.
  unfold z_eff_Schiwietz. cbv zeta. numR. fold Z2. assert (RP : 0 < Rpower (pZ p) 0.543) by apply exp_pos.
  assert (V : Rpow_c (pZ p) (Rlit (-0.543)) * velocity (pT p) / bohr_velocity = v).
  { rewrite Rpow_pos by exact HZ. replace (Rlit (-0.543)) with (Ropp 0.543) by (dec_norm; decs; lra). rewrite Rpower_Ropp. unfold v, bohr_velocity, c_light. numR. set (r := Rpower _ _) in *. clearbody r. dec_norm. decs. field. lra. }
  rewrite V. assert (VP : 0 < v) by (rewrite <- V; apply pos_quot; [apply Rmult_lt_0_compat; [apply Rpow_pos_gt0; exact HZ|exact BP]|unfold bohr_velocity, c_light; numR; dec_norm; lra]). clearbody v.
  assert (LP : 0 <= ln Z2) by (rewrite <- ln_1; destruct ZR as [ZR| <-]; [left; apply ln_increasing; lra|right; reflexivity]).
  assert (DP : 0 < 1 + 0.03 * v * ln Z2) by (assert (0 <= 0.03 * v * ln Z2) by (apply Rmult_le_pos; [apply Rmult_le_pos; lra|exact LP]); lra).
  assert (X : (Rlit 1 - Rlit 0.26 * exp (- Z2 / Rlit 11.0) * exp (- (Z2 - pZ p) * (Z2 - pZ p) / Rlit 9)) * Rpow_c (v / (Rlit 1 + Rlit 0.030 * v * ln Z2) / Rlit 1.54) (Rlit 1 + Rlit 1.83 / pZ p) = x).
  { unfold x. replace (Rlit 1) with 1 by (dec_norm; lra). replace (Rlit 11.0) with 11 by (dec_norm; lra). replace (Rlit 9) with 9 by (dec_norm; lra). replace (Rlit 0.030) with 0.03 by (dec_norm; decs; lra).
    change (Rlit 0.26) with 0.26. change (Rlit 1.54) with 1.54. change (Rlit 1.83) with 1.83. rewrite Rpow_pos by (apply pos_quot; [apply pos_quot; assumption|lra]).
    replace (- (Z2 - pZ p) * (Z2 - pZ p) / 9) with (- (Z2 - pZ p) ^ 2 / 9) by (field). reflexivity. }
  rewrite X. clearbody x. replace (x ^ 4) with (x * x * x * x) by ring. replace (Rlit 4) with 4 by (dec_norm; lra). reflexivity.
Qed.
Print Assumptions C59_schiwietz.

(** ** Gottschalk's scattering power and the scattering length: 1/Xs = alpha N_A r_e^2 Z^2/A (2 ln(33219 (A Z)^(-1/3)) - 1) *)
Theorem C59_scattering_length a z : (1 <= a <= 1000)%Z -> (1 <= z <= 1000)%Z ->
  scattering_length_az (F:=R) a z = Ok (1 / (0.00034896 * (IZR z ^ 2 / IZR a) * (2 * ln (33219 / Rpower (IZR a * IZR z) (1 / 3)) - 1))).
Proof.
  intros HA HZ. unfold scattering_length_az. rewrite imul_ok by nia. cbn [bind]. f_equal. numR. rewrite mult_IZR.
  assert (1 <= IZR a) by (apply IZR_le; lia). assert (1 <= IZR z) by (apply IZR_le; lia). rewrite Rpow_pos by nra.
  replace (Rlit (-1.0) / Rlit 3.0) with (- (1 / 3)) by (dec_norm; field). rewrite Rpower_Ropp. change (Rlit 33219 * / Rpower (IZR a * IZR z) (1 / 3)) with (33219 / Rpower (IZR a * IZR z) (1 / 3)).
  set (l := ln _). clearbody l. replace (Rlit 1.0) with 1 by (dec_norm; lra). f_equal. dec_norm. decs. field. lra.
Qed.
Print Assumptions C59_scattering_length.
Theorem C59_gottschalk p m p1 b1 Es2 Xs : 0 < pT p -> 0 < pA p -> scattering_length m = Ok Xs -> 0 < Xs ->
  let pv := momentum_velocity (pA p) (pT p) in let x := ln (1 - (pv / (p1 * b1)) ^ 2) / ln 10 in let y := ln pv / ln 10 in
  angular_scattering_power_xs (F:=R) p m p1 b1 Es2 = Ok ((0.5244 + 0.1975 * x + 0.2320 * y - 0.0098 * x * y) * (Es2 * pZ p ^ 2 / pv ^ 2 / Xs)).
Proof.
  intros HT HA HX XP pv x y. unfold angular_scattering_power_xs. cbv zeta. rewrite HX. cbn [bind]. pose proof amu_pos as U.
  destruct (fleb (pT p) (lit 0)) eqn:E; [exfalso; revert E; numR; rewrite Rleb_true; dec_norm; lra|]. clear E. f_equal.
  rewrite !ipow_two. unfold p_from_T. numR. rewrite amu_code. replace (Rlit 2) with 2 by (dec_norm; lra). replace (Rlit 1) with 1 by (dec_norm; lra).
  set (q := pT p * (pT p + 2 * amu)) in *. assert (QP : 0 < q) by (unfold q; apply Rmult_lt_0_compat; lra).
  assert (SQ : sqrt q * sqrt q = q) by (apply sqrt_sqrt; lra).
  assert (PV : sqrt q * pA p * (sqrt q * pA p / ((pT p + amu) * pA p)) = pv) by (unfold pv, momentum_velocity; fold q; rewrite <- SQ at 3; field; repeat split; lra).
  rewrite PV. replace (pv / (p1 * b1) * (pv / (p1 * b1))) with ((pv / (p1 * b1)) ^ 2) by ring. fold x y.
  assert (PP : 0 < pv) by (unfold pv, momentum_velocity; fold q; apply pos_quot; [apply Rmult_lt_0_compat; assumption|lra]). clearbody pv x y.
  dec_norm. decs. field. lra.
Qed.
Print Assumptions C59_gottschalk.

(** ** The moments of the scattering in a layer: rho Es^2 Z^2/X0 times the quadrature of (d - x)^n f(x) / (p v)^2 over the depth x,
    with the residual depth d, p v at depth x, and f = 1 or Highland's logarithmic factor *)
Theorem C59_moments rng eo p t c order r X0 : rng (pT p) = Ok r -> radiation_length t = Ok X0 -> 0 < pA p -> 0 < m_rho t -> c_scat c <> 2%Z ->
  let d := Rmin (r / m_rho t) (m_th t / m_rho t) in
  let f x := if (c_scat c =? 1)%Z then 0.97 * (1 + ln (x * m_rho t / X0) / 20.7) * (1 + ln (x * m_rho t / X0) / 22.7) else 1 in
  let Es2 := if ((c_scat c =? 0) || (c_scat c =? 1))%Z then Es_squared else 14.1 ^ 2 in
  angular_variance_with (F:=R) rng eo p t c order =
    omap (fun i => Es2 * pZ p ^ 2 / X0 * m_rho t * i)
      (integrate (fun x => e <- eo (x * m_rho t) ;; Ok (ipow (d - x) order * f x * (if Rle_dec e 0 then 0 else 1 / momentum_velocity (pA p) e ^ 2))) 0 d).
Proof.
  intros HR HX HA HRho HC d f Es2. unfold angular_variance_with. cbv zeta. rewrite HR, HX. cbn [bind].
  unfold sc_gottschalk. destruct (Z.eqb_spec (c_scat c) 2) as [E|_]; [contradiction|].
  assert (RR : residual_range r t = d).
  { unfold residual_range, d, thickness_cm. rewrite fminR. reflexivity. }
  rewrite RR. clearbody d. replace (lit 0) with 0 by (numR; dec_norm; lra).
  assert (SE : scattering_Es2 c = Es2).
  { unfold scattering_Es2, Es2, sc_fermi_rossi, sc_dhighland. destruct (c_scat c =? 0)%Z, (c_scat c =? 1)%Z; cbn [orb]; try reflexivity. numR. dec_norm. decs. lra. }
  rewrite SE. clearbody Es2.
  rewrite (integrate_ext (fx0p eo p t c X0 d order) (fun x => e <- eo (x * m_rho t) ;; Ok (ipow (d - x) order * f x * (if Rle_dec e 0 then 0 else 1 / momentum_velocity (pA p) e ^ 2)))).
  - destruct (integrate _ 0 d) as [i|]; cbn [bind omap]; [|reflexivity]. f_equal. rewrite ipow_two. numR. unfold Rdiv. ring.
  - intros x. unfold fx0p. cbn [fmul NumR]. destruct (eo (x * m_rho t)) as [e|]; cbn [bind]; [|reflexivity]. f_equal. unfold Tfr, at_T. cbn [pT pA]. cbv zeta.
    match goal with |- ?a * ?b * ?c = ?x * ?y * ?z => assert (E1 : b = y); [|assert (E2 : c = z); [|rewrite E1, E2; reflexivity]] end.
    + unfold f, sc_dhighland, dhighland_ff. destruct (c_scat c =? 1)%Z; [|numR; dec_norm; lra]. cbv zeta. numR. replace (Rlit 1) with 1 by (dec_norm; lra). reflexivity.
    + numR. replace (Rlit 0) with 0 by (dec_norm; lra). pose proof amu_pos as U. destruct (Rleb_spec e 0) as [L|L], (Rle_dec e 0) as [L'|L']; try (exfalso; lra); [dec_norm; lra|].
      rewrite !ipow_two. unfold p_from_T. numR. rewrite amu_code. replace (Rlit 2) with 2 by (dec_norm; lra). replace (Rlit 1) with 1 by (dec_norm; lra). replace (Rlit 1.0) with 1 by (dec_norm; lra).
      unfold momentum_velocity. set (q := e * (e + 2 * amu)) in *. assert (QP : 0 < q) by (unfold q; apply Rmult_lt_0_compat; lra).
      assert (SQ : sqrt q * sqrt q = q) by (apply sqrt_sqrt; lra).
      replace (sqrt q * pA p * (sqrt q * pA p / ((e + amu) * pA p))) with (pA p * q / (e + amu)) by (rewrite <- SQ at 1; field; repeat split; lra).
      field. repeat split; lra.
Qed.
Print Assumptions C59_moments.

(** with Gottschalk's scattering power, Es = 15 MeV: (p v) at depth x and at the entrance *)
Theorem C59_gottschalk_moments rng eo p t c order r X0 Xs : rng (pT p) = Ok r -> radiation_length t = Ok X0 -> scattering_length t = Ok Xs -> 0 < Xs ->
  0 < pA p -> 0 < pT p -> 0 < m_rho t -> c_scat c = 2%Z ->
  let d := Rmin (r / m_rho t) (m_th t / m_rho t) in let pv0 := momentum_velocity (pA p) (pT p) in
  let power e := let pv := momentum_velocity (pA p) e in let a := ln (1 - (pv / pv0) ^ 2) / ln 10 in let b := ln pv / ln 10 in
    (0.5244 + 0.1975 * a + 0.2320 * b - 0.0098 * a * b) * (15 ^ 2 * pZ p ^ 2 / pv ^ 2 / Xs) in
  angular_variance_with (F:=R) rng eo p t c order =
    omap (fun i => m_rho t * i)
      (integrate (fun x => e <- eo (x * m_rho t) ;; Ok (ipow (d - x) order * (if Rle_dec e 0 then 0 else power e))) 0 d).
Proof.
  intros HR HX HS SP HA HT HRho HC d pv0 power. unfold angular_variance_with. cbv zeta. rewrite HR, HX. cbn [bind].
  unfold sc_gottschalk. destruct (Z.eqb_spec (c_scat c) 2) as [_|E]; [|contradiction].
  assert (RR : residual_range r t = d).
  { unfold residual_range, d, thickness_cm. rewrite fminR. reflexivity. }
  rewrite RR. clearbody d. replace (lit 0) with 0 by (numR; dec_norm; lra). set (p1 := p_from_T (pT p) (pA p)). set (b1 := fdiv p1 _).
  assert (PV : p1 * b1 = pv0).
  { unfold b1, p1, pv0, momentum_velocity, p_from_T. numR. rewrite amu_code. pose proof amu_pos as U. replace (Rlit 2) with 2 by (dec_norm; lra). set (q := pT p * (pT p + 2 * amu)) in *. assert (QP : 0 < q) by (unfold q; apply Rmult_lt_0_compat; lra).
    assert (SQ : sqrt q * sqrt q = q) by (apply sqrt_sqrt; lra). rewrite <- SQ at 3. field. repeat split; lra. }
  rewrite (integrate_ext (fx0p_2 eo p t p1 b1 d order) (fun x => e <- eo (x * m_rho t) ;; Ok (ipow (d - x) order * (if Rle_dec e 0 then 0 else power e)))).
  - destruct (integrate _ 0 d) as [i|]; cbn [bind omap]; [|reflexivity]. f_equal. numR. ring.
  - intros x. unfold fx0p_2. cbn [fmul NumR]. destruct (eo (x * m_rho t)) as [e|]; cbn [bind]; [|reflexivity]. destruct (Rle_dec e 0) as [L|L].
    + unfold angular_scattering_power_xs. cbn [pT at_T]. destruct (fleb e (lit 0)) eqn:E; [|exfalso; revert E; numR; rewrite Rleb_false; dec_norm; lra]. cbn [bind]. f_equal. numR. f_equal. dec_norm. lra.
    + rewrite (C59_gottschalk (at_T p e) t p1 b1 (lit 225.0) Xs) by (cbn [pT pA at_T]; assumption || lra). cbn [bind pT pA pZ at_T]. rewrite PV. f_equal. numR. f_equal. unfold power. cbv zeta. replace (Rlit 225.0) with (15 ^ 2) by (dec_norm; lra). reflexivity.
Qed.
Print Assumptions C59_gottschalk_moments.

(** ** Concrete cases: carbon ions of 100 MeV/u in oxygen, with both corrections in force, and in water *)
Example C59_case : let p := carbon 100 in let t := mkTarget 16 8 1 in exists delta L X X0 Xs v,
  bethek_density_effect (velocity (pT p)) (tZ t) = Ok delta /\ precalculated_lindhard p = Ok L /\ precalculated_lindhard_X p = Ok X /\
  bethek_dedx_e_t (F:=R) p t conf 0 = Ok v /\ 0 < mean_energy t 0 /\
  radiation_length (F:=R) (water 1) = Ok X0 /\ 0 < X0 /\ scattering_length (F:=R) (water 1) = Ok Xs.
Proof.
  intros p t. assert (Z : (1 <= tZ t)%Z) by (cbn; lia).
  destruct (density_effect_ok (velocity (pT p)) (tZ t) Z) as [delta D].
  assert (P : proj_Z_ok p) by (destruct (carbon_legit 100); assumption).
  assert (SF : ls_safe (pT p)) by (unfold ls_safe, p; cbn [pT carbon]; pose proof glast_high; lra).
  destruct (lindhard_ok p P SF) as [L HL]. destruct (lindhard_X_ok p P SF) as [X HX].
  destruct C46_case as (X0 & HX0 & B). destruct (scattering_length_ok (water 1) (water_legit 1)) as [Xs HXs].
  assert (M : 0 < mean_energy t 0).
  { unfold mean_energy. destruct (Rlt_dec 0 0); [assumption|]. apply ipot_pos. cbn [tZ t]. lia. }
  do 3 eexists. exists X0, Xs. eexists. split; [exact D|]. split; [exact HL|]. split; [exact HX|].
  split; [apply (C59_bethe p t conf 0 delta L); try assumption; cbn; lra|]. split; [exact M|]. split; [exact HX0|]. split; [lra|exact HXs].
Qed.

(** protons of 100 MeV in 2 g/cm2 of water with Gottschalk's scattering: the moments exist *)
Example C59_gottschalk_case : let c := mkConfig (c_zeff conf) (c_corr conf) (c_calc conf) (c_low conf) 2 (c_sfac conf) in let p := mkProj 1 1 1 100 in
  (exists X0 Xs, radiation_length (F:=R) (water 2) = Ok X0 /\ scattering_length (F:=R) (water 2) = Ok Xs /\ 0 < Xs) /\ c_scat c = 2%Z /\
  (exists v, angular_variance_with (F:=R) (fun _ => Ok 7) (fun x => Ok (100 - 8 * x)) p (water 2) c 2 = Ok v).
Proof.
  intros c p. assert (SO : solid (water 2)) by (split; [discriminate|]; split; [|repeat (apply Forall_cons; [cbn; split; [|split; [lia|]]; dec_norm; lra|]); apply Forall_nil]; cbn; dec_norm; lra).
  assert (RO : radiation_ok (water 2)) by (unfold radiation_ok; repeat (apply Forall_cons; [cbn; lia|]); apply Forall_nil). destruct (radiation_positive _ SO RO) as (X0 & X & XP).
  destruct (scattering_length_pos (water 2) SO) as (Xs & XE & XS); [repeat (apply Forall_cons; [cbn; split; [|lia]; dec_norm; lra|]); apply Forall_nil|].
  split; [exists X0, Xs; auto|]. split; [reflexivity|]. unfold angular_variance_with. cbv zeta. cbn [bind]. rewrite X. cbn [bind]. change (c_scat c =? sc_gottschalk)%Z with true. cbv iota.
  match goal with |- exists v, bind ?i _ = _ => assert (D : defined i) end.
  { apply integrate_defined. intros z. unfold fx0p_2. cbn [bind]. unfold angular_scattering_power_xs. destruct (fleb _ _); [apply defined_Ok|]. rewrite XE. apply defined_Ok. }
  destruct D as [i HI]. rewrite HI. cbn [bind]. eexists. reflexivity.
Qed.

(** carbon of 100 MeV per nucleon in carbon: the element version has the radiation length 42.7 g/cm^2 *)
Example C59_element_case : let p := mkProj 12 6 6 100 in let t := mkTarget 12 6 1 in
  0 < pT p /\ 0 < pA p /\ radiation_length_z (F:=R) (tZ t) (tA t) = Ok 42.7 /\ (1 <= tZ t)%Z.
Proof. cbn [pT pA tZ tA]. split; [lra|]. split; [lra|]. split; [apply C46_tabulated; unfold pdg_lengths; do 4 right; left; reflexivity|lia]. Qed.
