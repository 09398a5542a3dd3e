(** * C59: the Coulomb barrier of the reaction cross section *)
From Coq Require Import ZArith QArith Qreals Reals Machin List Bool Lra Lia.
From Verif Require Import Num NumR Structures DataElements DataSrim EnergyTable Srim Calculations Integrator Storage Reactions Catima SpecData DataProofs
  BoundsProofs CacheFresh PropMaterial PropKin PropSrim PropCorr PropRad PropReact BetheBracket PropKronrod PropFormula.
Import ListNotations.
Local Open Scope R_scope.

(** ** Total reaction cross sections: Kox et al., sigma = 10 pi R^2 (1 - B/E_cm) mb with the Coulomb barrier B = e^2 Zp Zt / R_c,
    e^2 = 1.44 MeV fm. The code leaves out the factor e^2, so its barrier is too low by 30 percent. *)
Definition coulomb_barrier (Ap Zp At Zt : Z) : R := 1.44 * IZR Zp * IZR Zt / (1.3 * (cube13 Ap + cube13 At)).
Definition kox_published (Ap Zp At Zt : Z) (E : R) : R :=
  10 * PI_ * kox_radius Ap Zp At Zt (ln E / ln 10) ^ 2 * (1 - coulomb_barrier Ap Zp At Zt * (IZR Ap + IZR At) / (E * IZR Ap * IZR At)).
Lemma kox_c_le x : 0 <= x -> kox_c x <= 2.
Proof.
  intros X. unfold kox_c. destruct (Rlt_dec x (3 / 2)) as [H|H].
  - assert (0 <= (x / (3 / 2)) ^ 3 <= 1). { split; [apply pow_le; lra|]. rewrite <- (pow1 3). apply pow_incr. lra. } nra.
  - assert (0 < 10 / x ^ 5) by (apply pos_quot; [lra|apply pow_lt; lra]). lra.
Qed.
Theorem C59_kox_barrier_refuted : exists Ap Zp At Zt E s, nucleus Ap Zp /\ nucleus At Zt /\ 30 <= E /\
  SigmaR_Kox (F:=R) Ap Zp E At Zt = Ok s /\ 0 < kox_published Ap Zp At Zt E /\ 1.07 * kox_published Ap Zp At Zt E < s.
Proof.
  exists 208%Z, 82%Z, 208%Z, 82%Z, 30, (kox 208 82 208 82 30).
  split; [unfold nucleus; lia|]. split; [unfold nucleus; lia|]. split; [lra|]. split; [apply kox_value; lia|].
  destruct (cube13_cube 208 ltac:(lia)) as [C1 C3]. unfold kox, kox_published, kox_radius, barrier, coulomb_barrier.
  assert (LB : 0 <= ln 30 / ln 10). { rewrite <- (Rmult_0_l (/ ln 10)). apply Rmult_le_compat_r. - left. apply Rinv_0_lt_compat. rewrite <- ln_1. apply ln_increasing; lra. - rewrite <- ln_1. left. apply ln_increasing; lra. }
  pose proof (kox_c_le _ LB) as K. set (k := kox_c _) in *. clearbody k. set (x := cube13 208) in *. clearbody x.
  change (208 - 2 * 82)%Z with 44%Z. change (208 * 208)%Z with 43264%Z. change (82 * 82)%Z with 6724%Z.
  assert (XL : 5.92 < x) by (decs; nra). assert (XU : x < 5.93) by (decs; nra). revert XL XU. decs. intros XL XU.
  assert (RP : 0 < 11 / 10 * (x + x) + (11 / 10 * (185 / 100 * x * x / (x + x) - k) + 5 * 44 * 82 / 43264)).
  { replace (185 / 100 * x * x / (x + x)) with (185 / 200 * x) by (field; lra). lra. }
  set (r := 11 / 10 * (x + x) + _) in *. clearbody r. assert (R2 : 0 < 10 * PI_ * r ^ 2).
  { apply Rmult_lt_0_compat; [|apply pow_lt; exact RP]. unfold PI_. numR. dec_norm. lra. }
  set (w := 10 * PI_ * r ^ 2) in *. clearbody w.
  set (u := / x). assert (U1 : u * x = 1) by (unfold u; field; lra). 
  replace (6724 / (13 / 10 * (x + x))) with (6724 / (26 / 10) * u) by (unfold u; field; lra).
  replace (144 * / 100 * 82 * 82 / (13 * / 10 * (x + x))) with (144 / 100 * 6724 / (26 / 10) * u) by (unfold u; field; lra).
  assert (100 / 593 < u) by nra. assert (u < 100 / 592) by nra. clearbody u. split.
  - apply Rmult_lt_0_compat; [exact R2|]. lra.
  - replace (107 * / 100 * (w * (1 - 144 / 100 * 6724 / (26 / 10) * u * (208 + 208) / (30 * 208 * 208)))) with (w * (107 / 100 * (1 - 144 / 100 * 6724 / (26 / 10) * u * (208 + 208) / (30 * 208 * 208)))) by field.
    apply Rmult_lt_compat_l; [exact R2|]. lra.
Qed.
Print Assumptions C59_kox_barrier_refuted.
