(** * C59: the formulas of the low-energy stopping powers *)
From Coq Require Import ZArith QArith Qreals Reals Machin List Bool Lra Lia.
From Verif Require Import Num NumR Structures DataElements DataSrim EnergyTable Srim Calculations Integrator Storage Reactions Catima SpecData DataProofs
  BoundsProofs CacheFresh PropMaterial PropKin PropSrim PropCorr PropRad PropReact BetheBracket PropKronrod PropFormula.
Import ListNotations.
Local Open Scope R_scope.

(** ** Low energies: Andersen and Ziegler's fit of the proton stopping power, E in keV/u: 1/S = 1/S_low + 1/S_high above 25 keV,
    proportional to a power of the energy below *)
Definition fit_row (tab : list (list dec)) (z : Z) (j : nat) : R := Rlit (nth j (nth (Z.to_nat (Z.min z 92 - 1)) tab []) 0%dec).
Definition andersen_ziegler (c : nat -> R) (E : R) : R :=
  / (/ (c 0%nat * Rpower E (c 1%nat) + c 2%nat * Rpower E (c 3%nat)) + / (c 4%nat / Rpower E (c 5%nat) * ln (c 6%nat / E + c 7%nat * E))).
Definition proton_stopping (tab : list (list dec)) (z : Z) (E : R) : R :=
  let c := fit_row tab z in
  if Rle_dec E 25 then andersen_ziegler c 25 * Rpower (E / 25) (if (z >? 6)%Z then 0.45 else 0.25) else andersen_ziegler c E.
Lemma srim_row_min z : (1 <= z)%Z -> srim_row z = Z.of_nat (Z.to_nat (Z.min z 92 - 1)) /\ (Z.to_nat (Z.min z 92 - 1) < 92)%nat.
Proof. intros Z. unfold srim_row. destruct (Z.gtb_spec z 92); lia. Qed.
Lemma tab2_row tab z j : length tab = 92%nat -> forallb good_row tab = true -> (1 <= z)%Z -> (j < 8)%nat ->
  tab2 (F:=R) tab (srim_row z) (Z.of_nat j) = Ok (fit_row tab z j).
Proof.
  intros L G Z J. destruct (srim_row_min z Z) as [-> B]. unfold tab2, fit_row. set (i := Z.to_nat (Z.min z 92 - 1)) in *. clearbody i.
  rewrite (aget_nat tab i []) by lia. cbn [bind].
  assert (GR : good_row (nth i tab []) = true) by (rewrite forallb_forall in G; apply G; apply nth_In; lia).
  assert (LR : length (nth i tab []) = 8%nat) by (revert GR; generalize (nth i tab []); intros r; unfold good_row; destruct r as [|? [|? [|? [|? [|? [|? [|? [|? [|? ?]]]]]]]]]; try discriminate; reflexivity).
  rewrite (aget_nat _ j 0%dec) by lia. reflexivity.
Qed.
Lemma fit_value tab z energy : length tab = 92%nat -> forallb good_row tab = true -> (1 <= z)%Z -> 0 < energy ->
  p_se_with (F:=R) tab z energy = Ok (proton_stopping tab z (1000 * energy)).
Proof.
  intros L G Z E. unfold p_se_with. cbv zeta.
  rewrite ((tab2_row tab z 0 L G Z ltac:(lia)) : tab2 tab (srim_row z) 0 = _). cbn [bind].
  rewrite ((tab2_row tab z 1 L G Z ltac:(lia)) : tab2 tab (srim_row z) 1 = _). cbn [bind].
  rewrite ((tab2_row tab z 2 L G Z ltac:(lia)) : tab2 tab (srim_row z) 2 = _). cbn [bind].
  rewrite ((tab2_row tab z 3 L G Z ltac:(lia)) : tab2 tab (srim_row z) 3 = _). cbn [bind].
  rewrite ((tab2_row tab z 4 L G Z ltac:(lia)) : tab2 tab (srim_row z) 4 = _). cbn [bind].
  rewrite ((tab2_row tab z 5 L G Z ltac:(lia)) : tab2 tab (srim_row z) 5 = _). cbn [bind].
  rewrite ((tab2_row tab z 6 L G Z ltac:(lia)) : tab2 tab (srim_row z) 6 = _). cbn [bind].
  rewrite ((tab2_row tab z 7 L G Z ltac:(lia)) : tab2 tab (srim_row z) 7 = _). cbn [bind].
  f_equal. unfold proton_stopping. numR. change (Rlit 1000) with 1000. replace (Rlit 25.0) with 25 by (dec_norm; lra). change (Rlit 25) with 25.
  assert (C : forall j, (j < 8)%nat -> 0 < fit_row tab z j /\ 1 < 4 * (fit_row tab z 6 * fit_row tab z 7)).
  { intros j J. unfold fit_row. set (r := nth (Z.to_nat (Z.min z 92 - 1)) tab []).
    assert (GR : good_row r = true) by (rewrite forallb_forall in G; apply G; apply nth_In; destruct (srim_row_min z Z); lia). clearbody r.
    destruct r as [|c0 [|c1 [|c2 [|c3 [|c4 [|c5 [|c6 [|c7 [|? ?]]]]]]]]]; try discriminate GR. cbn [good_row] in GR. apply andb_true_iff in GR. destruct GR as [P Q]. split.
    - rewrite forallb_forall in P. apply Rlit_pos. apply P. apply nth_In. cbn [length]. lia.
    - cbn [nth]. rewrite negb_true_iff in Q. rewrite !Rlit_Q. assert (X : (1 < 4 * (dec_Q c6 * dec_Q c7))%Q).
      { apply QArith_base.Qnot_le_lt. intros H. apply QArith_base.Qle_bool_iff in H. congruence. }
      apply Qreals.Qlt_Rlt in X. rewrite !Qreals.Q2R_mult in X. revert X. unfold Q2R at 1 2. cbn [QArith_base.Qnum QArith_base.Qden]. lra. }
  set (c := fit_row tab z) in *. clearbody c.
  assert (S : forall e, 0 < e -> (c 0%nat * Rpow_c e (c 1%nat) + c 2%nat * Rpow_c e (c 3%nat)) * (c 4%nat / Rpow_c e (c 5%nat) * ln (c 6%nat / e + c 7%nat * e)) /
       (c 0%nat * Rpow_c e (c 1%nat) + c 2%nat * Rpow_c e (c 3%nat) + c 4%nat / Rpow_c e (c 5%nat) * ln (c 6%nat / e + c 7%nat * e)) = andersen_ziegler c e).
  { intros e EP. rewrite !Rpow_pos by exact EP. unfold andersen_ziegler.
    assert (P1 : 0 < Rpower e (c 1%nat)) by apply exp_pos. assert (P3 : 0 < Rpower e (c 3%nat)) by apply exp_pos. assert (P5 : 0 < Rpower e (c 5%nat)) by apply exp_pos.
    assert (LP : 0 < ln (c 6%nat / e + c 7%nat * e)).
    { rewrite <- ln_1. apply ln_increasing; [lra|]. apply term_pos; try exact EP; [apply (C 6%nat)|apply (C 7%nat)|apply (C 7%nat)]; lia. }
    destruct (C 0%nat ltac:(lia)) as [C0 _]. destruct (C 2%nat ltac:(lia)) as [C2 _]. destruct (C 4%nat ltac:(lia)) as [C4 _].
    set (sl := c 0%nat * _ + _). set (sh := c 4%nat / _ * _). assert (0 < sl) by (unfold sl; apply Rplus_lt_0_compat; apply Rmult_lt_0_compat; assumption).
    assert (0 < sh) by (unfold sh; apply Rmult_lt_0_compat; [apply pos_quot; assumption|exact LP]). clearbody sl sh. field. repeat split; lra. }
  destruct (Rleb_spec (1000 * energy) 25) as [L1|L1], (Rle_dec (1000 * energy) 25) as [L3|L3]; try (exfalso; lra).
  - rewrite (S 25) by lra. f_equal. destruct (z >? 6)%Z; rewrite Rpow_pos by (apply pos_quot; lra); reflexivity.
  - apply S. lra.
Qed.
Theorem C59_proton z energy : (1 <= z)%Z -> 0 < energy ->
  p_se (F:=R) z energy = Ok (proton_stopping pse_95 z (1000 * energy)) /\ p_se85 (F:=R) z energy = Ok (proton_stopping proton_stopping_coef z (1000 * energy)).
Proof. intros Z E. split; apply fit_value; try assumption; (apply rows_95 || apply rows_85). Qed.
Print Assumptions C59_proton.

(** the table of the selected fit *)
Definition fit_table (new : bool) : list (list dec) := if new then pse_95 else proton_stopping_coef.
(** protons: the fit; helium ions: four times the proton value times Ziegler's fit of the squared charge fraction, E in keV/u, not
    below 1; the last step of the code, a factor sqrt E for energies not above 1, acts on the clamped energy and has no effect *)
Definition helium_fraction (tz : Z) (E : R) : R :=
  let b := ln (Rmax 1 E) in
  (1 - exp (- Rmin 30 (0.2865 + 0.1266 * b - 0.001429 * b ^ 2 + 0.02402 * b ^ 3 - 0.01135 * b ^ 4 + 0.001475 * b ^ 5)))
    * (1 + (0.007 + 0.00005 * IZR tz) * exp (- (7.6 - b) ^ 2)) ^ 2.
Lemma no_sqrt a x : (if Reqb x (Rlit 1) then a * sqrt x else a) = a.
Proof. destruct (Reqb_spec x (Rlit 1)) as [->|_]; [|reflexivity]. replace (Rlit 1) with 1 by (dec_norm; lra). rewrite sqrt_1. ring. Qed.
Theorem C59_helium tz energy new : (1 <= tz)%Z -> 0 < energy ->
  srim_dedx_e (F:=R) 1 tz energy new = Ok (proton_stopping (fit_table new) tz (1000 * energy)) /\
  srim_dedx_e (F:=R) 2 tz energy new = Ok (4 * proton_stopping (fit_table new) tz (1000 * energy) * helium_fraction tz (1000 * energy)).
Proof.
  intros TZ E. assert (FV : forall (f : Z -> R -> outcome R), f = (if new then p_se else p_se85) -> f tz energy = Ok (proton_stopping (fit_table new) tz (1000 * energy))).
  { intros f ->. unfold fit_table. destruct new; apply C59_proton; assumption. }
  unfold srim_dedx_e. cbv zeta. cbn [Z.eqb Pos.eqb]. split; [apply FV; reflexivity|]. unfold srim_he. cbv zeta. rewrite (FV _ eq_refl). cbn [bind]. f_equal.
  set (s := proton_stopping _ _ _). clearbody s. numR. rewrite fminR, fmaxR. unfold helium_fraction.
  assert (EM : (if Rleb (energy * Rlit 1000) (Rlit 1) then Rlit 1 else energy * Rlit 1000) = Rmax 1 (1000 * energy)).
  { replace (Rlit 1) with 1 by (dec_norm; lra). change (Rlit 1000) with 1000. rewrite (Rmult_comm energy). destruct (Rleb_spec (1000 * energy) 1); [rewrite Rmax_left|rewrite Rmax_right]; lra. }
  rewrite EM. set (x := Rmax 1 (1000 * energy)). assert (X : 1 <= x) by (unfold x; apply Rmax_l). clearbody x.
  assert (B : 0 <= ln x) by (rewrite <- ln_1; destruct X as [X| <-]; [left; apply ln_increasing; lra|right; reflexivity]).
  rewrite no_sqrt.
  replace (Rmax (Rlit 0) (ln x)) with (ln x) by (replace (Rlit 0) with 0 by (dec_norm; lra); rewrite Rmax_right; lra).
  set (b := ln x) in *. clearbody b.
  replace (- (Rlit 7.6 - b) * (Rlit 7.6 - b)) with (- (7.6 - b) ^ 2) by (dec_norm; decs; field).
  replace (Rlit 0.2865 + b * (Rlit 0.1266 + b * (Rlit (-0.001429) + b * (Rlit 0.02402 + b * (Rlit (-0.01135) + b * Rlit 0.001475)))))
    with (0.2865 + 0.1266 * b - 0.001429 * b ^ 2 + 0.02402 * b ^ 3 - 0.01135 * b ^ 4 + 0.001475 * b ^ 5) by (dec_norm; decs; field).
  change (Rlit 30) with 30. set (e1 := exp _). set (e2 := exp _). clearbody e1 e2. dec_norm. decs. field.
Qed.
Print Assumptions C59_helium.

(** heavier ions: the proton value times the square of the ion charge times Ziegler, Biersack and Littmark's effective charge fraction;
    E in keV/u, velocities in units of the Bohr velocity *)
Definition zbl_relative (vF v : R) : R := if Rle_dec vF v then v + vF ^ 2 / (5 * v) else 3 / 4 * vF * (1 + 2 / 3 * (v / vF) ^ 2 - (v / vF) ^ 4 / 15).
Definition zbl_cut (Z1 : R) : R := Rmax 0.130 (1 / Rpower Z1 (1 / 3) ^ 2).
Definition zbl_ionization (y : R) : R :=
  Rmax 0 (1 - exp (- Rmin 50 (-0.803 * Rpower y 0.3 + 1.3167 * Rpower y 0.6 + 0.38157 * y + 0.008983 * y ^ 2))).
Definition zbl_length (Z1 q screen : R) : R :=
  let b := Rmin 0.43 (Rmax 0.32 (0.12 + 0.025 * Z1)) in
  let mid := Rmax 0 (0.9 - 0.025 * Z1) in
  let l0 := (0.8 - q * Rmin 1.2 (0.6 + Z1 / 30)) * screen in
  let l1 := if Rlt_dec q 0.2 then 0 else if Rlt_dec q mid then b * (q - 0.2) / Rabs (mid - 0.2000001)
            else if Rlt_dec q (1 - 0.025 * Rmin 16 Z1) then b else b * (1 - q) / (0.025 * Rmin 16 Z1) in
  Rmax l1 l0 / Rpower Z1 (1 / 3).
Definition zbl_fraction (Z1 Z2 vF q L E : R) : R :=
  (q + (1 - q) / (2 * vF ^ 2) * ln (1 + (4 * L * vF / 1.919) ^ 2)) * (1 + / Z1 ^ 2 * (0.18 + 0.0015 * Z2) * exp (- (7.6 - Rmax 0 (ln E)) ^ 2)).
Definition semiconductor (pz tz : Z) : Prop := tz = 6%Z \/ (tz = 14%Z \/ tz = 32%Z) /\ (pz <= 19)%Z.
Definition heavy_stopping (proton : R -> R) (pz tz : Z) (vF screen E : R) (S : R) : Prop :=
  let Z1 := IZR pz in
  let y := zbl_relative vF (sqrt (E / 25)) / Rpower Z1 (1 / 3) ^ 2 in
  let charge y := Z1 * zbl_fraction Z1 (IZR tz) vF (zbl_ionization y) (zbl_length Z1 (zbl_ionization y) screen) E in
  (zbl_cut Z1 < y -> S = proton E * charge y ^ 2) /\
  (y <= zbl_cut Z1 ->
   let vr := Rmax 1 (0.130 * Rpower Z1 (1 / 3) ^ 2) in
   let vmin := (vr + sqrt (Rmax 0 (vr ^ 2 - 0.8 * vF ^ 2))) / 2 in
   let Emin := 25 * vmin ^ 2 in
   (semiconductor pz tz -> S = proton Emin * charge (zbl_cut Z1) ^ 2 * Rpower (E / Emin) 0.35) /\
   (~ semiconductor pz tz -> S = proton Emin * charge (zbl_cut Z1) ^ 2 * sqrt (E / Emin))).
Definition table_entry (tab : list dec) (z : Z) : R := Rlit (nth (Z.to_nat (Z.min z 92 - 1)) tab 0%dec).
Lemma tab1_row tab z : length tab = 92%nat -> (1 <= z)%Z -> tab1 (F:=R) tab (srim_row z) = Ok (table_entry tab z).
Proof. intros L Hz. destruct (srim_row_min z Hz) as [-> B]. unfold tab1, table_entry. rewrite (aget_nat tab _ 0%dec) by lia. reflexivity. Qed.
Lemma table_entry_pos tab z : length tab = 92%nat -> forallb (fun c => (0 <? dec_mant c)%Z) tab = true -> (1 <= z)%Z -> 0 < table_entry tab z.
Proof.
  intros L G Hz. destruct (srim_row_min z Hz) as [_ B]. unfold table_entry. apply Rlit_pos. rewrite forallb_forall in G.
  apply (G (nth (Z.to_nat (Z.min z 92 - 1)) tab 0%dec)). apply nth_In. lia.
Qed.
Lemma clamp_max a : Rmin (Rlit 1.0) (Rmax (Rlit 0.0) (Rlit 1.0 - exp a)) = Rmax 0 (1 - exp a).
Proof. replace (Rlit 1.0) with 1 by (dec_norm; lra). replace (Rlit 0.0) with 0 by (dec_norm; lra). pose proof (exp_pos a). apply Rmin_right. apply Rmax_lub; lra. Qed.
Lemma relative_velocity vF e : 0 < vF -> 0 < e ->
  (if Rleb (Rlit 1) (sqrt (e / Rlit 25.0) / vF) then sqrt (e / Rlit 25.0) / vF * vF * (Rlit 1 + Rlit 0.2 / (sqrt (e / Rlit 25.0) / vF * (sqrt (e / Rlit 25.0) / vF)))
   else Rlit 3.0 * vF / Rlit 4.0 * (Rlit 1.0 + sqrt (e / Rlit 25.0) / vF * (sqrt (e / Rlit 25.0) / vF) * (Rlit 2.0 / Rlit 3.0 - sqrt (e / Rlit 25.0) / vF * (sqrt (e / Rlit 25.0) / vF) / Rlit 15.0))) =
  zbl_relative vF (sqrt (e / 25)).
Proof.
  intros V E. replace (Rlit 25.0) with 25 by (dec_norm; lra). set (s := sqrt (e / 25)). assert (SP : 0 < s) by (apply sqrt_lt_R0; apply pos_quot; lra). clearbody s.
  unfold zbl_relative. replace (Rlit 1) with 1 by (dec_norm; lra).
  assert (X : 1 <= s / vF <-> vF <= s). { split; intros H. - apply (Rmult_le_compat_r vF) in H; [|lra]. replace (s / vF * vF) with s in H by (field; lra). lra.
    - apply Rmult_le_reg_r with vF; [lra|]. replace (s / vF * vF) with s by (field; lra). lra. }
  destruct (Rleb_spec 1 (s / vF)) as [H|H], (Rle_dec vF s) as [H'|H'].
  - dec_norm; field; lra.
  - exfalso. apply X in H. contradiction.
  - exfalso. apply X in H'. lra.
  - dec_norm; field; lra.
Qed.
Lemma length_value z1 q sc p13 : 0 < p13 ->
  Rmax (if Rltb q (Rlit 0.2) then Rlit 0
        else if Rltb q (Rmax (Rlit 0.0) (Rlit 0.9 - Rlit 0.025 * z1)) then Rmin (Rlit 0.43) (Rmax (Rlit 0.32) (Rlit 0.12 + Rlit 0.025 * z1)) * (Rlit 1.0 / p13) * (q - Rlit 0.2) / Rabs (Rmax (Rlit 0.0) (Rlit 0.9 - Rlit 0.025 * z1) - Rlit 0.2000001)
        else if Rltb q (Rmax (Rlit 0.0) (Rlit 1.0 - Rlit 0.025 * Rmin (Rlit 16) z1)) then Rmin (Rlit 0.43) (Rmax (Rlit 0.32) (Rlit 0.12 + Rlit 0.025 * z1)) * (Rlit 1.0 / p13)
        else Rmin (Rlit 0.43) (Rmax (Rlit 0.32) (Rlit 0.12 + Rlit 0.025 * z1)) * (Rlit 1.0 / p13) * (Rlit 1.0 - q) / (Rlit 0.025 * Rmin (Rlit 16) z1))
       ((Rlit 0.8 - q * Rmin (Rlit 1.2) (Rlit 0.6 + z1 / Rlit 30.0)) * (Rlit 1.0 / p13) * sc) = zbl_length z1 q sc / p13 * Rpower z1 (1 / 3).
Proof.
  intros P. unfold zbl_length. replace (Rlit 1.0) with 1 by (dec_norm; lra). replace (Rlit 0.0) with 0 by (dec_norm; lra). replace (Rlit 0) with 0 by (dec_norm; lra).
  replace (Rlit 30.0) with 30 by (dec_norm; lra). change (Rlit 16) with 16.
  change (Rlit 0.2) with 0.2. change (Rlit 0.9) with 0.9. change (Rlit 0.025) with 0.025. change (Rlit 0.43) with 0.43. change (Rlit 0.32) with 0.32. change (Rlit 0.12) with 0.12.
  change (Rlit 0.2000001) with 0.2000001. change (Rlit 0.8) with 0.8. change (Rlit 1.2) with 1.2. change (Rlit 0.6) with 0.6.
  set (b := Rmin _ (Rmax _ _)). set (mid := Rmax 0 (0.9 - _)). set (l0 := (0.8 - q * Rmin 1.2 (0.6 + z1 / 30)) * sc). set (w := Rmin 16 z1).
  assert (G : Rmax 0 (1 - 0.025 * w) = 1 - 0.025 * w). { apply Rmax_right. assert (w <= 16) by apply Rmin_l. decs. lra. }
  rewrite G. assert (C : 0 < Rpower z1 (1 / 3)) by apply exp_pos. set (c := Rpower z1 (1 / 3)) in *.
  replace ((0.8 - q * Rmin 1.2 (0.6 + z1 / 30)) * (1 / p13) * sc) with (l0 / p13) by (unfold l0; field; lra).
  assert (K : forall x y, Rmax (x / p13) (y / p13) = Rmax x y / c / p13 * c).
  { intros x y. replace (Rmax x y / c / p13 * c) with (Rmax x y * / p13) by (field; lra). unfold Rdiv. rewrite (Rmult_comm x), (Rmult_comm y), (Rmult_comm (Rmax x y)). apply RmaxRmult. left; now apply Rinv_0_lt_compat. }
  rewrite <- K. f_equal. clearbody c. 
  assert (H2 : 0.2 = 2 / 10) by (decs; lra).
  destruct (Rltb_spec q 0.2), (Rlt_dec q 0.2); try (exfalso; lra); [unfold Rdiv; ring|].
  destruct (Rltb_spec q mid), (Rlt_dec q mid); try (exfalso; lra); [unfold Rdiv; ring|].
  destruct (Rltb_spec q (1 - 0.025 * w)), (Rlt_dec q (1 - 0.025 * w)); try (exfalso; lra); unfold Rdiv; ring.
Qed.
Theorem C59_heavy_ion pz tz energy new : (3 <= pz <= 46340)%Z -> (1 <= tz)%Z -> 0 < energy ->
  exists S, srim_dedx_e (F:=R) pz tz energy new = Ok S /\
    heavy_stopping (proton_stopping (fit_table new) tz) pz tz (table_entry atima_vfermi tz) (table_entry atima_lambda_screening pz) (1000 * energy) S.
Proof.
  intros PZ TZ E.
  assert (FV : forall e, 0 < e -> (if new then p_se else p_se85) tz e = Ok (proton_stopping (fit_table new) tz (1000 * e))).
  { intros e E'. unfold fit_table. destruct new; apply C59_proton; assumption. }
  unfold srim_dedx_e. cbv zeta. replace (pz =? 1)%Z with false by (symmetry; apply Z.eqb_neq; lia). replace (pz =? 2)%Z with false by (symmetry; apply Z.eqb_neq; lia).
  unfold srim_hi. cbv zeta. rewrite (tab1_row atima_vfermi tz vfermi_size TZ), (tab1_row atima_lambda_screening pz screening_size) by lia. cbn [bind].
  rewrite imul_ok by nia. cbn [bind].
  pose proof (table_entry_pos atima_vfermi tz vfermi_size vfermi_pos TZ) as VP. set (vF := table_entry atima_vfermi tz) in *.
  set (sc := table_entry atima_lambda_screening pz). clearbody vF sc. set (pr := proton_stopping (fit_table new) tz) in *. clearbody pr.
  set (fp := if new then p_se else p_se85) in *. clearbody fp. numR.
  replace (energy * Rlit 1000) with (1000 * energy) by (change (Rlit 1000) with 1000; ring).
  rewrite !fminR, !fmaxR, !clamp_max, (relative_velocity vF (1000 * energy) VP) by lra. rewrite mult_IZR. set (z1 := IZR pz) in *. assert (Z1 : 3 <= z1) by (unfold z1; apply IZR_le; lia).
  rewrite (Rpow_pos z1) by lra. replace (Rlit 1.0 / Rlit 3.0) with (1 / 3) by (dec_norm; lra).
  assert (PP : 0 < Rpower z1 (1 / 3)) by apply exp_pos. rewrite !(length_value z1 _ sc (Rpower z1 (1 / 3)) PP).
  unfold heavy_stopping. cbv zeta. fold z1. set (rv := zbl_relative vF (sqrt (1000 * energy / 25))).
  set (c := Rpower z1 (1 / 3)) in *. clearbody rv.
  set (y1 := Rmax (Rmax (Rlit 0.130) _) _).
  assert (YE : y1 = Rmax (rv / c ^ 2) (zbl_cut z1)).
  { unfold y1, zbl_cut. fold c. change (Rlit 0.130) with 0.130. replace (Rlit 1.0 * (Rlit 1.0 / c * (Rlit 1.0 / c))) with (1 / c ^ 2) by (dec_norm; field; lra).
    replace (rv * (Rlit 1.0 / c * (Rlit 1.0 / c))) with (rv / c ^ 2) by (dec_norm; field; lra). rewrite (Rmax_comm 0.130 (rv / c ^ 2)). symmetry; apply Rmax_assoc. }
  assert (CP : 0 < zbl_cut z1) by (unfold zbl_cut; eapply Rlt_le_trans; [|apply Rmax_l]; decs; lra).
  assert (YP : 0 < y1) by (rewrite YE; eapply Rlt_le_trans; [exact CP|apply Rmax_r]). clearbody y1.
  rewrite !(Rpow_pos y1) by exact YP.
  replace (Rmax 0 (1 - exp (- Rmin (Rlit (-0.803) * Rpower y1 (Rlit 0.3) + Rlit 1.3167 * Rpower y1 (Rlit 0.6) + Rlit 0.38157 * y1 + Rlit 0.008983 * y1 * y1) (Rlit 50.0)))) with (zbl_ionization y1).
  2:{ unfold zbl_ionization. do 4 f_equal. rewrite Rmin_comm. f_equal; [|dec_norm; lra]. change (Rlit (-0.803)) with (-0.803). change (Rlit 0.3) with 0.3. change (Rlit 0.6) with 0.6. change (Rlit 1.3167) with 1.3167.
      change (Rlit 0.38157) with 0.38157. change (Rlit 0.008983) with 0.008983. ring. }
  set (q := zbl_ionization y1). set (ll := zbl_length z1 q sc).
  replace (ll / c * c) with ll by (field; lra).
  match goal with |- context [if _ then bind _ (fun sp => Ok (sp * ?k * ?k * _)) else _] => set (ch := k) end.
  assert (CE : ch = z1 * zbl_fraction z1 (IZR tz) vF q ll (1000 * energy)).
  { unfold ch, zbl_fraction. replace (Rlit 0.0) with 0 by (dec_norm; lra). change (Rlit 1.919) with 1.919. change (Rlit 0.18) with 0.18. change (Rlit 0.0015) with 0.0015.
    change (Rlit 7.6) with 7.6. replace (Rlit 4.0) with 4 by (dec_norm; lra). replace (Rlit 1) with 1 by (dec_norm; lra). replace (Rlit 2) with 2 by (dec_norm; lra).
    set (m := 7.6 - _). replace (- m * m) with (- m ^ 2) by ring. replace (4 * ll * vF / 1.919 * (4 * ll * vF / 1.919)) with ((4 * ll * vF / 1.919) ^ 2) by ring.
    set (lg := ln _). set (ex := exp _). clearbody lg ex. field. lra. }
  clearbody ch.
  replace (Rmax (Rlit 0.130) (Rlit 1.0 * (Rlit 1.0 / c * (Rlit 1.0 / c)))) with (zbl_cut z1).
  2:{ unfold zbl_cut. fold c. change (Rlit 0.130) with 0.130. f_equal. dec_norm. field. lra. }
  replace (Rlit 0.130 / (Rlit 1.0 / c * (Rlit 1.0 / c))) with (0.130 * c ^ 2) by (change (Rlit 0.130) with 0.130; dec_norm; field; lra).
  replace (Rlit 1.0) with 1 by (dec_norm; lra). replace (Rlit 0.0) with 0 by (dec_norm; lra). change (Rlit 0.8) with 0.8.
  set (vr := Rmax 1 (0.130 * c ^ 2)). assert (VR : 1 <= vr) by apply Rmax_l. clearbody vr.
  replace (vr * vr - 0.8 * vF * vF) with (vr ^ 2 - 0.8 * vF ^ 2) by ring. set (rt := sqrt (Rmax 0 _)). assert (RT : 0 <= rt) by apply sqrt_pos. clearbody rt.
  replace (Rlit 25.0 * (Rlit 0.5 * (vr + rt)) * (Rlit 0.5 * (vr + rt))) with (25 * ((vr + rt) / 2) ^ 2) by (dec_norm; field).
  set (em := 25 * ((vr + rt) / 2) ^ 2). assert (EM : 0 < em) by (unfold em; apply Rmult_lt_0_compat; [lra|apply pow_lt; lra]). clearbody em.
  assert (SC : ((tz =? 6) || ((tz =? 14) || (tz =? 32)) && (pz <=? 19))%Z%bool = true <-> semiconductor pz tz).
  { unfold semiconductor. rewrite orb_true_iff, andb_true_iff, orb_true_iff, !Z.eqb_eq, Z.leb_le. reflexivity. }
  destruct (Rleb_spec y1 (zbl_cut z1)) as [H|H].
  - assert (YC : rv / c ^ 2 <= zbl_cut z1) by (eapply Rle_trans; [apply Rmax_l|rewrite <- YE; exact H]).
    assert (Y1 : y1 = zbl_cut z1) by (rewrite YE; apply Rmax_right; exact YC).
    rewrite FV by (apply Rmult_lt_0_compat; [exact EM|dec_norm; lra]). cbn [bind]. replace (1000 * (em * Rlit 0.001)) with em by (dec_norm; field).
    eexists. split; [reflexivity|]. split; [intros; exfalso; lra|]. intros _. unfold ll, q in CE. rewrite Y1 in CE. rewrite CE.
    set (k := z1 * _). clearbody k. rewrite Rpow_pos by (apply pos_quot; lra). split; intros SM.
    + rewrite (proj2 SC SM). change (Rlit 0.35) with 0.35. ring.
    + destruct ((tz =? 6) || _)%Z%bool; [exfalso; apply SM; apply SC; reflexivity|]. replace (Rlit 0.5) with (/ 2) by (dec_norm; lra). rewrite Rpower_sqrt by (apply pos_quot; lra). ring.
  - rewrite FV by exact E. cbn [bind]. assert (YC : zbl_cut z1 < rv / c ^ 2).
    { destruct (Rle_lt_dec (rv / c ^ 2) (zbl_cut z1)) as [G|G]; [|exact G]. rewrite (Rmax_right _ _ G) in YE. lra. }
    assert (Y1 : y1 = rv / c ^ 2) by (rewrite YE; apply Rmax_left; lra).
    eexists. split; [reflexivity|]. split; [|intros; exfalso; lra]. intros _. unfold ll, q in CE. rewrite Y1 in CE. rewrite CE.
    set (k := z1 * _). clearbody k. f_equal. replace (Rlit 2.0) with 2 by (dec_norm; lra). apply pow_two.
Qed.
Print Assumptions C59_heavy_ion.

(** carbon ions of 1 MeV/u in oxygen are above the velocity cut *)
Example C59_srim_case : let vF := table_entry atima_vfermi 8 in
  zbl_cut 6 < zbl_relative vF (sqrt (1000 / 25)) / Rpower 6 (1 / 3) ^ 2 /\ exists S, srim_dedx_e (F:=R) 6 8 1 true = Ok S /\ 0 < S.
Proof.
  intros vF. split.
  - assert (VB : 0 < vF < 2). { unfold vF, table_entry. change (Z.to_nat (Z.min 8 92 - 1)) with 7%nat. cbn [nth atima_vfermi]. dec_norm. lra. }
    clearbody vF.
    assert (SQ : 6 < sqrt (1000 / 25)) by (rewrite <- (sqrt_square 6) by lra; apply sqrt_lt_1; lra). set (v := sqrt (1000 / 25)) in *. clearbody v.
    unfold zbl_relative. destruct (Rle_dec vF v); [|lra]. assert (0 < vF ^ 2 / (5 * v)) by (apply pos_quot; [apply pow_lt; lra|lra]).
    destruct (cube13_cube 6 ltac:(lia)) as [C1 C3]. unfold zbl_cut. change (Rpower 6 (1 / 3)) with (cube13 6). set (c := cube13 6) in *. clearbody c.
    assert (C2 : c < 2) by nra. assert (C4 : 0 < c ^ 2 < 4) by (cbn [pow]; nra).
    set (k := c ^ 2) in *. clearbody k. assert (I : 1 / 4 < / k) by (apply Rmult_lt_reg_r with k; [lra|]; rewrite Rinv_l by lra; lra).
    set (w := vF ^ 2 / (5 * v)) in *. clearbody w. unfold Rdiv. set (u := / k) in *. clearbody u. assert (6 * u < (v + w) * u) by nra. apply Rmax_lub_lt; [decs|]; lra.
  - apply (C42_any_ion 6 8 1 true); lia || lra.
Qed.
