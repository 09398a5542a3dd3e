(** * C57: the Lindhard-Sorensen tables against the formula they were generated from *)
From Coq Require Import ZArith QArith Reals Qreals List Bool Lra Lia.
From Verif Require Import Num NumR Structures DataElements DataLSa DataLSahi EnergyTable Calculations SpecData DataProofs GridProofs InterpProofs
  BoundsProofs StragTables PropGrid PropStrag BetheProofs Lindhard TrigR PropLindhard LnBounds LSTable.
Import ListNotations.
Local Open Scope R_scope.

Lemma abs_inv x b : Rabs x <= b -> - b <= x <= b.
Proof. unfold Rabs. destruct (Rcase_abs x); lra. Qed.
Definition weight (p : Projectile R) : R := element_atomic_weight (Rfloor_Z (pZ p)).
Lemma weight_is p : proj_Z_ok p -> exists z, (1 <= z <= 108)%nat /\ Z.to_nat (Rfloor_Z (pZ p) - 1) = (z - 1)%nat /\ weight p = Rlit (weight_dec z).
Proof.
  intros Z. destruct (proj_Z_int p Z) as [_ B]. exists (Z.to_nat (Rfloor_Z (pZ p))). split; [lia|]. split; [lia|].
  unfold weight, element_atomic_weight, weight_dec. replace ((0 <? Rfloor_Z (pZ p)) && (Rfloor_Z (pZ p) <? 110))%Z with true by (symmetry; rewrite andb_true_iff, !Z.ltb_lt; lia). reflexivity.
Qed.
Lemma closed_value fuel p : 10 / radius (pA p) <= lorentz (pT p) -> bethek_lindhard fuel p = Some (closed (pA p) (pT p)).
Proof. apply C54_ultrarelativistic. Qed.

(** at the energies and masses of the tables the library returns the value of the formula to the six
    digits the tables are written with *)
Theorem C57_entries fuel p i T : proj_Z_ok p -> at_ (ls_energy_table (F:=R)) i = Some T -> pT p = T ->
  pA p = weight p \/ pA p = 105 / 100 * weight p -> 10 / radius (pA p) <= lorentz T ->
  exists v L, precalculated_lindhard p = Ok v /\ bethek_lindhard fuel p = Some L /\ Rabs (v - L) <= 6 / 1000000.
Proof.
  intros Z HT ET HA RG. destruct (proj_Z_int p Z) as [_ B]. destruct (weight_is p Z) as (z & ZB & ZE & WE).
  assert (I : (i < 200)%nat).
  { unfold at_ in HT. assert (Q : (i < length (et_values (ls_energy_table (F:=R))))%nat) by (apply nth_error_Some; congruence). rewrite ls_table_eq, et_values_length in Q. exact Q. }
  assert (TG : T = G200 (IZR (Z.of_nat i))).
  { unfold at_ in HT. rewrite ls_table_eq, et_nth in HT by exact I. rewrite <- INR_IZR_INZ. congruence. }
  assert (T1 : 1 <= pT p).
  { rewrite ET, TG. replace 1 with (G200 0) by (unfold gval; rewrite Rmult_0_l, Rplus_0_r, Rmult_0_r; apply exp_0). apply gval_le; [lia|lra|apply IZR_le; lia]. }
  destruct ls_a_sizes as [SA1 SA2], ls_ahi_sizes as [SH1 SH2]. rewrite Forall_forall in SA2, SH2.
  assert (look : forall tab, length tab = 108%nat -> (forall r, In r tab -> length r = 200%nat) -> ls_lookup tab (Rfloor_Z (pZ p) - 1) (pT p) = Ok (Rlit (nth i (nth (z - 1) tab []) 0%dec))).
  { intros tab L1 L2. assert (L3 : length (nth (z - 1) tab []) = 200%nat) by (apply L2, nth_In; rewrite L1; lia).
    rewrite ET. apply (C25_lindhard_tables tab _ (nth (z - 1) tab []) i).
    - rewrite <- ZE. apply nth_aget. rewrite L1. lia.
    - exact L3.
    - exact HT.
    - apply nth_error_nth'. rewrite L3. exact I. }
  rewrite (L_unfold p Z T1), (look _ SA1 SA2), (look _ SH1 SH2). cbn [bind]. fold (la (z - 1) i) (lh (z - 1) i).
  eexists. exists (closed (pA p) (pT p)). split; [reflexivity|]. split; [apply closed_value; rewrite ET; exact RG|].
  destruct (entry_ok z i ZB I) as (W0 & EA & EH). rewrite <- WE, <- TG in *. unfold excess. cbv zeta. fold (weight p). rewrite ET.
  destruct HA as [HA|HA]; rewrite HA in *.
  - specialize (EA RG). replace ((weight p - weight p) / weight p / (1 / 20)) with 0 by (field; lra). rewrite Rmult_0_l, Rplus_0_r. exact EA.
  - replace (105 / 100) with (21 / 20) in * by field. specialize (EH RG).
    replace ((21 / 20 * weight p - weight p) / weight p / (1 / 20)) with 1 by (field; lra).
    replace (Rlit (la (z - 1) i) + 1 * (Rlit (lh (z - 1) i) - Rlit (la (z - 1) i))) with (Rlit (lh (z - 1) i)); [exact EH|]. generalize (Rlit (lh (z - 1) i)) (Rlit (la (z - 1) i)). intros. ring.
Qed.
Print Assumptions C57_entries.

(** ** Between the tabulated energies and masses *)
Definition log_step : R := IZR (x_num 1) / IZR x_den.
Lemma log_step_value : 809954 / 10000000 <= log_step <= 809955 / 10000000.
Proof.
  unfold log_step. assert (XD : 0 < IZR x_den) by (apply IZR_lt; reflexivity). split; apply Rmult_le_reg_r with (IZR x_den); try exact XD; unfold Rdiv at 2; rewrite ?(Rmult_assoc (IZR (x_num 1))), ?Rinv_l, ?Rmult_1_r by lra;
  unfold x_num, x_den; rewrite !mult_IZR, (IZR_pow10 29) by lia; change (Z.to_nat 29) with 29%nat; lra.
Qed.
Lemma node_next i : exists r, 10843 / 10000 <= r <= 10844 / 10000 /\ G200 (IZR (i + 1)) = r * G200 (IZR i) /\ ln r = log_step.
Proof.
  exists (G200 (IZR (i + 1)) / G200 (IZR i)). pose proof (gval_pos 200 0 7 (IZR i)) as P. pose proof (gval_pos 200 0 7 (IZR (i + 1))) as P1.
  assert (I0 : 0 < / G200 (IZR i)) by (now apply Rinv_0_lt_compat). assert (Q : 0 < G200 (IZR (i + 1)) / G200 (IZR i)) by (now apply Rmult_lt_0_compat).
  assert (E : ln (G200 (IZR (i + 1)) / G200 (IZR i)) = log_step).
  { unfold Rdiv. rewrite ln_mult, ln_Rinv by assumption. rewrite !node_ln. unfold log_step. assert (XD : 0 < IZR x_den) by (apply IZR_lt; reflexivity).
    replace (x_num (i + 1)) with (x_num i + x_num 1)%Z by (unfold x_num; ring). rewrite plus_IZR. field. lra. }
  split; [|split; [field; lra|exact E]]. pose proof log_step_value as V. pose proof SC_pos as S0. split; apply Rnot_lt_le; intros H; apply ln_increasing in H; try lra.
  - rewrite E in H. destruct (ln_int 10843 10000) as [[l h]|] eqn:C; [|vm_compute in C; discriminate].
    assert (D : (10000000 * h <= 809954 * SC)%Z) by (vm_compute in C; injection C as <- <-; apply Z.leb_le; vm_compute; reflexivity).
    apply ln_int_ok in C. apply IZR_le in D. rewrite !mult_IZR in D. apply (Rmult_lt_compat_r (IZR SC)) in H; [|exact S0]. assert (809954 / 10000000 * IZR SC <= log_step * IZR SC) by (apply Rmult_le_compat_r; lra). lra.
  - rewrite E in H. destruct (ln_int 10844 10000) as [[l h]|] eqn:C; [|vm_compute in C; discriminate].
    assert (D : (809955 * SC <= 10000000 * l)%Z) by (vm_compute in C; injection C as <- <-; apply Z.leb_le; vm_compute; reflexivity).
    apply ln_int_ok in C. apply IZR_le in D. rewrite !mult_IZR in D. apply (Rmult_lt_compat_r (IZR SC)) in H; [|exact S0]. assert (log_step * IZR SC <= 809955 / 10000000 * IZR SC) by (apply Rmult_le_compat_r; lra). lra.
Qed.
(** linear interpolation of the logarithm *)
Lemma ln_le_minus x : 0 < x -> ln x <= x - 1.
Proof.
  intros H. destruct (Req_dec x 1) as [->|N]; [rewrite ln_1; lra|]. pose proof (exp_ineq1 (x - 1) ltac:(lra)) as E. left. rewrite <- (ln_exp (x - 1)). apply ln_increasing; lra.
Qed.
Lemma interp_ln r l : 10843 / 10000 <= r <= 10844 / 10000 -> - (1 / 1000) <= l <= 1 ->
  - (3 / 10000) <= ln (1 + l * (r - 1)) - l * log_step <= 9 / 10000.
Proof.
  intros Hr Hl. pose proof log_step_value as V. set (x := l * (r - 1)).
  assert (X : (0 <= l /\ 843 / 10000 * l <= x <= 844 / 10000 * l) \/ (l < 0 /\ - (1 / 10000) <= x <= 843 / 10000 * l)).
  { unfold x. destruct (Rle_lt_dec 0 l); [left|right]; split; try lra; split; nra. }
  assert (LL : (0 <= l /\ 809954 / 10000000 * l <= l * log_step <= 809955 / 10000000 * l) \/ (l < 0 /\ 809955 / 10000000 * l <= l * log_step <= 809954 / 10000000 * l)).
  { destruct (Rle_lt_dec 0 l); [left|right]; split; try lra; split; nra. }
  set (y := l * log_step) in *. clearbody x y. split.
  - destruct X as [[L X]|[L X]].
    + destruct (ln1p_bounds x ltac:(nra)) as [A _]. assert (x ^ 2 <= (844 / 10000 * l) ^ 2) by (apply pow_incr; nra). destruct LL as [[_ LL]|[L' _]]; [|lra]. cbn [pow] in *. nra.
    + destruct LL as [[L' _]|[_ LL]]; [lra|]. pose proof (ln_le_minus (/ (1 + x)) ltac:(apply Rinv_0_lt_compat; lra)) as A. rewrite ln_Rinv in A by lra.
      assert (/ (1 + x) <= 1 + 2 / 10000); [|lra]. apply Rmult_le_reg_r with (1 + x); [lra|]. rewrite Rinv_l by lra. nra.
  - pose proof (ln_le_minus ((1 + x) / (1041 / 1000)) ltac:(lra)) as A. unfold Rdiv at 1 in A. rewrite ln_mult, ln_Rinv in A by lra.
    destruct (ln1p_bounds (41 / 1000) ltac:(lra)) as [_ K]. replace (1 + 41 / 1000) with (1041 / 1000) in K by field. replace (1041 / 1000) with (1041 * / 1000) in K by reflexivity.
    destruct X as [[L X]|[L X]], LL as [[L' LL]|[L' LL]]; lra.
Qed.
(** ... and of the other terms, which are small *)
Lemma psi_interp r l v : 10843 / 10000 <= r <= 10844 / 10000 -> - (1 / 1000) <= l <= 1 -> 0 <= v <= 1 / 480 ->
  Rabs (psi (v / (1 + l * (r - 1))) - ((1 - l) * psi v + l * psi (v / r))) <= 18 / 100000.
Proof.
  intros Hr Hl Hv. set (s := 1 + l * (r - 1)). assert (S : 9999 / 10000 <= s <= r) by (unfold s; split; nra).
  assert (near : forall u, 0 <= u <= 22 / 10000 -> u - 25 / 10000000 <= psi u <= u).
  { intros u U. destruct (psi_bounds u ltac:(lra)) as [A B]. assert (0 <= u * u <= 22 / 10000 * (22 / 10000)) by (split; [nra|apply Rmult_le_compat; lra]). split; nra. }
  assert (IR : 922 / 1000 <= / r <= 9223 / 10000).
  { split; [apply Rmult_le_reg_r with r; [lra|]; rewrite Rinv_l by lra; lra|apply Rmult_le_reg_r with r; [lra|]; rewrite Rinv_l by lra; lra]. }
  assert (IS : / r <= / s <= 10002 / 10000).
  { split; [apply Rinv_le_contravar; lra|]. apply Rmult_le_reg_r with s; [lra|]. rewrite Rinv_l by lra. lra. }
  unfold Rdiv in *. pose proof (near v ltac:(lra)) as N0. pose proof (near (v * / r) ltac:(split; nra)) as N1. pose proof (near (v * / s) ltac:(split; nra)) as N2.
  set (a := psi (v * / s)) in *. set (b := psi v) in *. set (c := psi (v * / r)) in *. clearbody a b c.
  set (q := / r) in *. set (t := / s) in *. clearbody q t.
  assert (C : (1 - l) * v + l * (v * q) = v * (1 - l * (1 - q))) by ring.
  assert (C1 : - (1 / 10000) <= l * (1 - q) <= 1 - q) by (split; nra).
  assert (D : Rabs (v * t - v * (1 - l * (1 - q))) <= v * (79 / 1000)).
  { replace (v * t - v * (1 - l * (1 - q))) with (v * (t - 1 + l * (1 - q))) by ring. rewrite Rabs_mult, (Rabs_right v) by lra. apply Rmult_le_compat_l; [lra|]. apply Rabs_le. lra. }
  assert (E1 : (1 - l) * v - 251 / 100000000 <= (1 - l) * b <= (1 - l) * v) by (split; nra).
  assert (E2 : l * (v * q) - 25 / 10000000 <= l * c <= l * (v * q) + 1 / 100000000) by (split; nra).
  apply Rabs_le. apply abs_inv in D. lra.
Qed.
(** linear interpolation in the mass, e in units of five per cent *)
Lemma mass_near e : 0 <= e <= 1 -> - (1 / 10000) <= ln (1 + e / 20) - e * ln (21 / 20) <= 126 / 100000.
Proof.
  intros E. destruct (ln1p_bounds (e / 20) ltac:(lra)) as [A _]. destruct (ln1p_bounds (1 / 20) ltac:(lra)) as [K1 K2]. replace (1 + 1 / 20) with (21 / 20) in * by field.
  pose proof (ln_le_minus (1 + e / 20) ltac:(lra)) as B. set (k := ln (21 / 20)) in *. clearbody k. cbn [pow] in *.
  assert (e * (4875 / 100000) <= e * k <= e * (4880 / 100000)) by (split; apply Rmult_le_compat_l; lra). split; nra.
Qed.
Lemma mass_wide e : -4 <= e <= 4 -> - (29 / 1000) <= ln (1 + e / 20) - e * ln (21 / 20) <= 5 / 1000.
Proof.
  intros E. destruct (ln1p_bounds (1 / 20) ltac:(lra)) as [K1 K2]. replace (1 + 1 / 20) with (21 / 20) in * by field.
  pose proof (ln_le_minus (1 + e / 20) ltac:(lra)) as B. set (k := ln (21 / 20)) in *. clearbody k. cbn [pow] in K1, K2.
  destruct (Rle_lt_dec 0 e) as [P|N].
  - destruct (ln1p_bounds (e / 20) ltac:(lra)) as [A _]. cbn [pow] in A. assert (e * (4875 / 100000) <= e * k <= e * (4880 / 100000)) by (split; apply Rmult_le_compat_l; lra). split; nra.
  - assert (EK : e * (4880 / 100000) <= e * k <= e * (4875 / 100000)) by (split; nra). split; [|lra].
    set (y := - (e / 20) / (1 + e / 20)). assert (Y0 : 0 <= y) by (unfold y; apply Rmult_le_pos; [lra|left; apply Rinv_0_lt_compat; lra]).
    assert (YE : y * (1 + e / 20) = - (e / 20)) by (unfold y; field; lra). assert (Y1 : y <= 1 / 4) by nra.
    assert (LE : ln (1 + e / 20) = - ln (1 + y)) by (rewrite <- ln_Rinv by lra; f_equal; unfold y; field; lra).
    destruct (ln1p_bounds y Y0) as [_ A]. rewrite LE.
    assert (X : e / 20 = - (y / (1 + y))) by (unfold y; field; lra).
    assert (Q : y - y ^ 2 / 2 + y ^ 3 / 3 <= 112 / 100 * (y / (1 + y))).
    { apply Rmult_le_reg_r with (1 + y); [lra|]. replace (112 / 100 * (y / (1 + y)) * (1 + y)) with (112 / 100 * y) by (field; lra).
      replace ((y - y ^ 2 / 2 + y ^ 3 / 3) * (1 + y)) with (y * (1 + y / 2 - y * y / 6 + y * y * y / 3)) by field.
      rewrite (Rmult_comm (112 / 100)). apply Rmult_le_compat_l; [exact Y0|]. assert (y * y * y <= y * y / 4) by nra. nra. }
    lra.
Qed.
Lemma weight_max z : (1 <= z <= 108)%nat -> Rlit (weight_dec z) <= 300.
Proof.
  intros Z. assert (C : forallb (fun k => fine (weight_dec k) && (sc (weight_dec k) <=? 300 * 10 ^ 12)%Z) (seq 1 108) = true) by (vm_compute; reflexivity).
  rewrite forallb_forall in C. specialize (C z ltac:(apply in_seq; lia)). rewrite andb_true_iff, Z.leb_le in C. destruct C as [F C]. apply IZR_le in C. rewrite (sc_R _ F), mult_IZR, IZR_pow10 in C by lia. change (Z.to_nat 12) with 12%nat in C. lra.
Qed.
Lemma radius_pos A : 0 < radius A.
Proof. unfold radius. apply Rmult_lt_0_compat; [apply exp_pos|lra]. Qed.
Lemma radius_mono A B : 0 < A -> A <= B -> radius A <= radius B.
Proof. intros H L. unfold radius. apply Rmult_le_compat_r; [lra|]. apply Rle_Rpower_l; lra. Qed.
Lemma radius_max A : 0 < A <= 300 -> radius A <= 67 / 10 * compton.
Proof.
  intros H. unfold radius. apply Rmult_le_compat_r; [lra|]. apply Rle_trans with (Rpower ((67 / 10) ^ 3) (1 / 3)); [apply Rle_Rpower_l; lra|].
  rewrite <- Rpower_pow by lra. rewrite Rpower_mult. replace (INR 3 * (1 / 3)) with 1 by (cbn; field). rewrite Rpower_1; lra.
Qed.
Lemma radius_scale f g A : 0 < A -> 0 <= g -> 0 < f -> g ^ 3 <= f -> g * radius A <= radius (f * A).
Proof.
  intros A0 G F H. unfold radius. rewrite <- Rmult_assoc. apply Rmult_le_compat_r; [lra|].
  rewrite <- (Rpower_mult_distr f A) by assumption. apply Rmult_le_compat_r; [left; apply exp_pos|].
  destruct G as [G| <-]; [|left; apply exp_pos]. apply Rle_trans with (Rpower (g ^ 3) (1 / 3)); [|apply Rle_Rpower_l; [lra|split; [now apply pow_lt|exact H]]].
  rewrite <- Rpower_pow by exact G. rewrite Rpower_mult. replace (INR 3 * (1 / 3)) with 1 by (cbn; field). rewrite Rpower_1; lra.
Qed.
Lemma between_gen p : proj_Z_ok p -> pT p < ls_glast - numeric_epsilon -> 11 / radius (weight p) <= lorentz (pT p) ->
  8 / 10 * weight p <= pA p <= 12 / 10 * weight p -> let e := excess p in
  exists v, precalculated_lindhard p = Ok v /\ 10 / radius (pA p) <= lorentz (pT p) /\ -4 <= e <= 4 /\
    Rabs (v - closed (pA p) (pT p) - (ln (1 + e / 20) - e * ln (21 / 20)) / 3) <= 116 / 100000.
Proof.
  intros Z TL RG HA. cbv zeta. destruct (weight_is p Z) as (z & ZB & ZE & WE). pose proof (weight_max z ZB) as WM. rewrite <- WE in WM.
  destruct (entry_ok z 0 ZB ltac:(lia)) as (W0 & _). rewrite <- WE in W0. pose proof (radius_pos (weight p)) as R0. pose proof (radius_max (weight p) ltac:(lra)) as RM.
  assert (LG : 11 <= lorentz (pT p) * radius (weight p)).
  { apply (Rmult_le_compat_r (radius (weight p))) in RG; [|lra]. unfold Rdiv in RG. rewrite Rmult_assoc, Rinv_l, Rmult_1_r in RG by lra. exact RG. }
  assert (T1 : 1 <= pT p).
  { apply Rnot_lt_le. intros H. assert (lorentz (pT p) <= 2) by (unfold lorentz; lra). nra. }
  destruct (L_inside p Z (conj T1 TL)) as (i & l & I & L & D & _ & E). rewrite ZE in E.
  destruct (node_next i) as (r & Hr & EN & LR). pose proof (gval_pos 200 0 7 (IZR i)) as G0. set (g := G200 (IZR i)) in *.
  assert (TE : pT p = g * (1 + l * (r - 1))) by (rewrite D, EN; ring).
  assert (S0 : 9999 / 10000 <= 1 + l * (r - 1) <= r) by (split; nra).
  assert (GE : lorentz (pT p) <= 10844 / 10000 * lorentz g).
  { unfold lorentz. assert (pT p <= 10844 / 10000 * g) by (rewrite TE, (Rmult_comm g); apply Rmult_le_compat_r; lra). lra. }
  assert (RG0 : 10 / radius (weight p) <= lorentz g).
  { apply Rmult_le_reg_r with (radius (weight p)); [exact R0|]. unfold Rdiv. rewrite Rmult_assoc, Rinv_l, Rmult_1_r by lra.
    assert (lorentz (pT p) * radius (weight p) <= 10844 / 10000 * lorentz g * radius (weight p)) by (apply Rmult_le_compat_r; lra). lra. }
  assert (RG1 : 10 / radius (weight p) <= lorentz (G200 (IZR (i + 1)))) by (eapply Rle_trans; [exact RG0|]; apply lorentz_mono; rewrite EN; nra).
  assert (RW : radius (weight p) <= radius (21 / 20 * weight p)) by (apply radius_mono; lra).
  assert (RI : 10 / radius (21 / 20 * weight p) <= 10 / radius (weight p)) by (apply Rmult_le_compat_l; [lra|]; now apply Rinv_le_contravar).
  assert (LG0 : 488 <= lorentz g).
  { eapply Rle_trans; [|exact RG0]. apply Rmult_le_reg_r with (radius (weight p)); [exact R0|]. unfold Rdiv. rewrite Rmult_assoc, Rinv_l, Rmult_1_r by lra. nra. }
  set (v := amu / g). assert (V : 0 <= v <= 1 / 480).
  { assert (VE : v * (lorentz g - 1) = 1) by (unfold v, lorentz; field; lra). assert (0 < v) by (unfold v; apply Rmult_lt_0_compat; [lra|now apply Rinv_0_lt_compat]). split; nra. }
  destruct (entry_ok z (Z.to_nat i) ZB ltac:(lia)) as (_ & A0 & H0). destruct (entry_ok z (S (Z.to_nat i)) ZB ltac:(lia)) as (_ & A1 & H1).
  replace (Z.of_nat (S (Z.to_nat i))) with (i + 1)%Z in A1, H1 by lia. rewrite Z2Nat.id in A0, H0 by lia. rewrite <- WE in A0, H0, A1, H1. fold g in A0, H0.
  specialize (A0 RG0). specialize (H0 (Rle_trans _ _ _ RI RG0)). specialize (A1 RG1). specialize (H1 (Rle_trans _ _ _ RI RG1)).
  assert (G1 : 0 < G200 (IZR (i + 1))) by apply gval_pos.
  rewrite closed_eq in A0, H0, A1, H1 by lra. assert (LRW : log_radius (21 / 20 * weight p) = log_radius (weight p) + ln (21 / 20) / 3) by (unfold log_radius; rewrite (ln_mult (21 / 20)) by lra; field).
  rewrite LRW in H0, H1. rewrite EN in A1, H1. rewrite (ln_mult r g), LR in A1, H1 by lra. replace (amu / (r * g)) with (v / r) in A1, H1 by (unfold v; field; lra). fold v in A0, H0.
  set (e := excess p) in *. assert (AE : pA p = (1 + e / 20) * weight p) by (unfold e, excess; cbv zeta; fold (weight p); field; lra).
  assert (EB : -4 <= e <= 4).
  { rewrite AE in HA. split; nra. }
  eexists. split; [exact E|]. split.
  { pose proof (radius_scale (1 + e / 20) (92 / 100) (weight p) W0 ltac:(lra) ltac:(lra) ltac:(lra)) as RS. rewrite <- AE in RS. pose proof (radius_pos (pA p)) as RP.
    apply Rmult_le_reg_r with (radius (pA p)); [exact RP|]. unfold Rdiv. rewrite Rmult_assoc, Rinv_l, Rmult_1_r by lra.
    assert (0 < lorentz (pT p)) by nra. assert (lorentz (pT p) * (92 / 100 * radius (weight p)) <= lorentz (pT p) * radius (pA p)) by (apply Rmult_le_compat_l; lra). lra. }
  split; [exact EB|]. rewrite closed_eq by lra. replace (log_radius (pA p)) with (log_radius (weight p) + ln (1 + e / 20) / 3) by (unfold log_radius; rewrite AE, (ln_mult (1 + e / 20)) by lra; field).
  assert (LT : ln (pT p) = ln g + ln (1 + l * (r - 1))) by (rewrite TE; apply ln_mult; lra). rewrite LT.
  replace (amu / pT p) with (v / (1 + l * (r - 1))) by (rewrite TE; unfold v; field; lra).
  pose proof (interp_ln r l Hr ltac:(lra)) as IL. pose proof (psi_interp r l v Hr ltac:(lra) V) as IP.
  unfold lr. set (a0 := Rlit (la (z - 1) (Z.to_nat i))) in *. set (h0 := Rlit (lh (z - 1) (Z.to_nat i))) in *. set (a1 := Rlit (la (z - 1) (S (Z.to_nat i)))) in *. set (h1 := Rlit (lh (z - 1) (S (Z.to_nat i)))) in *. clearbody a0 h0 a1 h1.
  set (p0 := psi v) in *. set (p1 := psi (v / r)) in *. set (ps := psi (v / (1 + l * (r - 1)))) in *. set (w := log_radius (weight p)) in *. set (x := ln g) in *. set (m := ln amu) in *.
  set (s := ln (1 + l * (r - 1))) in *. set (k := ln (21 / 20)) in *. set (q := ln (1 + e / 20)) in *. set (d := log_step) in *.
  clearbody p0 p1 ps w x m s k q d. clear - A0 H0 A1 H1 L EB IL IP.
  set (E0 := 3 / 10 - x + m - p0 - w) in *. set (E1 := 3 / 10 - (d + x) + m - p1 - w) in *.
  replace (3 / 10 - x + m - p0 - (w + k / 3)) with (E0 - k / 3) in H0 by (unfold E0; ring). replace (3 / 10 - (d + x) + m - p1 - (w + k / 3)) with (E1 - k / 3) in H1 by (unfold E1; ring).
  assert (J : forall a h F, Rabs (a - F) <= 6 / 1000000 -> Rabs (h - (F - k / 3)) <= 6 / 1000000 -> Rabs (a + e * (h - a) - (F - e * (k / 3))) <= 54 / 1000000).
  { intros a h F Q1 Q2. replace (a + e * (h - a) - (F - e * (k / 3))) with ((1 - e) * (a - F) + e * (h - (F - k / 3))) by ring.
    eapply Rle_trans; [apply Rabs_triang|]. rewrite !Rabs_mult. assert (Rabs (1 - e) <= 5) by (apply Rabs_le; lra). assert (Rabs e <= 4) by (apply Rabs_le; lra).
    pose proof (Rabs_pos (1 - e)). pose proof (Rabs_pos e). pose proof (Rabs_pos (a - F)). pose proof (Rabs_pos (h - (F - k / 3))).
    assert (Rabs (1 - e) * Rabs (a - F) <= 5 * (6 / 1000000)) by (apply Rmult_le_compat; assumption). assert (Rabs e * Rabs (h - (F - k / 3)) <= 4 * (6 / 1000000)) by (apply Rmult_le_compat; assumption). lra. }
  pose proof (J a0 h0 E0 A0 H0) as J0. pose proof (J a1 h1 E1 A1 H1) as J1. clear J A0 H0 A1 H1.
  set (X0 := a0 + e * (h0 - a0)) in *. set (X1 := a1 + e * (h1 - a1)) in *. clearbody X0 X1.
  assert (J2 : Rabs ((1 - l) * X0 + l * X1 - ((1 - l) * E0 + l * E1 - e * (k / 3))) <= 55 / 1000000).
  { replace ((1 - l) * X0 + l * X1 - ((1 - l) * E0 + l * E1 - e * (k / 3))) with ((1 - l) * (X0 - (E0 - e * (k / 3))) + l * (X1 - (E1 - e * (k / 3)))) by ring.
    set (y0 := X0 - _) in *. set (y1 := X1 - _) in *. clearbody y0 y1. apply Rabs_le. apply abs_inv in J0, J1. split; nra. }
  replace ((1 - l) * E0 + l * E1) with (3 / 10 - x - l * d + m - ((1 - l) * p0 + l * p1) - w) in J2 by (unfold E0, E1; ring).
  apply Rabs_le. apply abs_inv in J2, IP. lra.
Qed.

(** from 11 nuclear radii on and below the last tabulated energy, for nuclides up to five per cent heavier than the
    tabulated mass, and for all nuclides within twenty per cent *)
Theorem C57_between fuel p : proj_Z_ok p -> pT p < ls_glast - numeric_epsilon -> 11 / radius (weight p) <= lorentz (pT p) ->
  8 / 10 * weight p <= pA p <= 12 / 10 * weight p ->
  exists v L, precalculated_lindhard p = Ok v /\ bethek_lindhard fuel p = Some L /\ Rabs (v - L) <= 11 / 1000 /\
    (weight p <= pA p <= 105 / 100 * weight p -> Rabs (v - L) <= 16 / 10000).
Proof.
  intros Z TL RG HA. destruct (between_gen p Z TL RG HA) as (v & E & R1 & EB & D). exists v, (closed (pA p) (pT p)). split; [exact E|]. split; [now apply closed_value|].
  pose proof (mass_wide _ EB) as MW. apply abs_inv in D. split; [apply Rabs_le; lra|]. intros HN. 
  destruct (weight_is p Z) as (z & ZB & _ & WE). destruct (entry_ok z 0 ZB ltac:(lia)) as (W0 & _). rewrite <- WE in W0.
  assert (AE : pA p = (1 + excess p / 20) * weight p) by (unfold excess; cbv zeta; fold (weight p); field; lra). rewrite AE in HN.
  pose proof (mass_near (excess p) ltac:(split; nra)) as MN. apply Rabs_le. lra.
Qed.
Print Assumptions C57_between.
(** ** Above the last tabulated energy *)
(** logarithms of fractions not below 1, in units of 10^-6 *)
Lemma ln_between num den lo hi : match ln_int num den with Some (l, h) => (lo * SC <=? 1000000 * l) && (1000000 * h <=? hi * SC) | None => false end%Z = true ->
  IZR lo / 1000000 <= ln (IZR num / IZR den) <= IZR hi / 1000000.
Proof.
  destruct (ln_int num den) as [[l h]|] eqn:E; [|discriminate]. rewrite andb_true_iff, !Z.leb_le. intros [A B]. apply ln_int_ok in E. destruct E as (_ & _ & E1 & E2). apply IZR_le in A, B. rewrite !mult_IZR in A, B.
  pose proof SC_pos as S0. split; apply Rmult_le_reg_r with (IZR SC); try exact S0; lra.
Qed.
Lemma compton_value : - (5791 / 1000) <= ln compton <= - (579 / 100).
Proof.
  pose proof (ln_between (10 ^ 14) 305573356675 5790000 5791000 ltac:(vm_compute; reflexivity)) as H. rewrite IZR_pow10 in H by lia. change (Z.to_nat 14) with 14%nat in H.
  replace (ln (10 ^ 14 / 305573356675)) with (- ln compton) in H by (rewrite <- ln_Rinv by lra; f_equal; field). lra.
Qed.
Lemma amu_value : 6836 / 1000 <= ln amu <= 6837 / 1000.
Proof. pose proof (ln_between 9314940954 10000000 6836000 6837000 ltac:(vm_compute; reflexivity)) as H. lra. Qed.
Lemma last_ln : 16118 / 1000 <= ln ls_glast.
Proof. unfold ls_glast. rewrite glast_val by (lia || lra). rewrite ln_exp. unfold LN10_. numR. dec_norm. lra. Qed.
Lemma last_big : 9999999 <= ls_glast.
Proof.
  destruct (nodes_nth 38 ltac:(lia)) as (q & I & _). change (Z.of_nat (161 + 38)) with 199%Z in I.
  assert (Q : q = 9999999999%Z).
  { assert (U : forall iq, In iq nodes -> fst iq = 199%Z -> snd iq = 9999999999%Z).
    { assert (C : forallb (fun iq => negb (fst iq =? 199)%Z || (snd iq =? 9999999999)%Z) nodes = true) by (vm_compute; reflexivity). rewrite forallb_forall in C. intros iq J F. specialize (C iq J). rewrite F in C. cbn in C. now apply Z.eqb_eq. }
    exact (U _ I eq_refl). }
  subst q. apply node_bounds in I. unfold ls_glast, glast. replace (INR 200 - 1) with (IZR 199) by (rewrite INR_IZR_INZ; cbn; lra). lra.
Qed.
(** the library uses 0 where the formula gives less than -3 *)
Theorem C57_beyond fuel p : proj_Z_ok p -> 1 <= pA p -> ls_glast < pT p ->
  precalculated_lindhard p = Ok 0 /\ exists L, bethek_lindhard fuel p = Some L /\ L < -3.
Proof.
  intros Z A1 T. split; [now apply C25_lindhard_limits|]. pose proof last_big as LB. pose proof last_ln as LL.
  assert (RC : compton <= radius (pA p)).
  { replace compton with (radius 1) by (unfold radius, Rpower; rewrite ln_1, Rmult_0_r, exp_0; lra). apply radius_mono; lra. }
  exists (closed (pA p) (pT p)). split.
  - apply closed_value. apply Rmult_le_reg_r with (radius (pA p)); [apply radius_pos|]. unfold Rdiv. rewrite Rmult_assoc, Rinv_l, Rmult_1_r by (pose proof (radius_pos (pA p)); lra).
    assert (G : 10000 <= lorentz (pT p)) by (unfold lorentz; lra). nra.
  - rewrite closed_eq by lra. pose proof amu_value as AV. pose proof compton_value as CV.
    assert (LT : ln ls_glast < ln (pT p)) by (apply ln_increasing; lra).
    assert (PS : 0 <= psi (amu / pT p)).
    { assert (V : 0 <= amu / pT p <= 1 / 1000). { split; [apply Rmult_le_pos; [lra|left; apply Rinv_0_lt_compat; lra]|]. apply Rmult_le_reg_r with (pT p); [lra|]. unfold Rdiv at 1. rewrite Rmult_assoc, Rinv_l by lra. lra. }
      destruct (psi_bounds _ (proj1 V)) as [P _]. nra. }
    assert (LA : 0 <= ln (pA p)) by (rewrite <- ln_1; destruct A1 as [A1| <-]; [left; apply ln_increasing; lra|lra]).
    unfold log_radius. lra.
Qed.
Print Assumptions C57_beyond.

(** uranium of mass 238.029 at 5 TeV per nucleon: the table and the formula both give -4.32 *)
Definition high_uranium : Projectile R := mkProj (238029 / 1000) 92 92 5000000.
Lemma uranium_floor : Rfloor_Z 92 = 92%Z.
Proof. unfold Rfloor_Z. replace 92 with (IZR 92) by reflexivity. unfold Int_part. rewrite <- (tech_up 92 93); [reflexivity|lra|lra]. Qed.
Lemma uranium_weight : weight high_uranium = 238029 / 1000.
Proof. unfold weight, high_uranium. cbn [pZ]. rewrite uranium_floor. unfold element_atomic_weight. change (lit (nth (Z.to_nat 92) element_atomic_weights 0%dec) = 238029 / 1000). let d := eval vm_compute in (nth (Z.to_nat 92) element_atomic_weights 0%dec) in change (nth (Z.to_nat 92) element_atomic_weights 0%dec) with d. numR. dec_norm. lra. Qed.
Example C57_case : exists v L, precalculated_lindhard high_uranium = Ok v /\ bethek_lindhard 0 high_uranium = Some L /\
  - (433 / 100) < v < - (431 / 100) /\ - (433 / 100) < L < - (431 / 100).
Proof.
  assert (Z : proj_Z_ok high_uranium) by (unfold proj_Z_ok, high_uranium; cbn; lra). pose proof last_big as LB. pose proof eps_small as ES.
  pose proof uranium_weight as W. pose proof (radius_scale (238029 / 1000) 6 1 ltac:(lra) ltac:(lra) ltac:(lra) ltac:(lra)) as RS. rewrite Rmult_1_r in RS.
  assert (R1 : radius 1 = compton) by (unfold radius, Rpower; rewrite ln_1, Rmult_0_r, exp_0; lra). rewrite R1 in RS.
  assert (G : 5000 <= lorentz 5000000) by (unfold lorentz; lra).
  destruct (C57_between 0 high_uranium Z) as (v & L & E1 & E2 & _ & E3).
  - cbn [pT high_uranium]. lra.
  - rewrite W. cbn [pT high_uranium]. eapply Rle_trans; [|exact G]. apply Rmult_le_reg_r with (radius (238029 / 1000)); [apply radius_pos|]. unfold Rdiv at 1. rewrite Rmult_assoc, Rinv_l by (pose proof (radius_pos (238029 / 1000)); lra). lra.
  - rewrite W. cbn [pA high_uranium]. lra.
  - exists v, L. split; [exact E1|]. split; [exact E2|]. specialize (E3 ltac:(rewrite W; cbn [pA high_uranium]; lra)). apply abs_inv in E3.
    assert (LV : - (4325 / 1000) < L < - (4315 / 1000)).
    { rewrite closed_value in E2 by (cbn [pA pT high_uranium]; eapply Rle_trans; [|exact G]; apply Rmult_le_reg_r with (radius (238029 / 1000)); [apply radius_pos|]; unfold Rdiv at 1; rewrite Rmult_assoc, Rinv_l by (pose proof (radius_pos (238029 / 1000)); lra); lra).
      injection E2 as <-. cbn [pA pT high_uranium]. rewrite closed_eq by lra.
      pose proof amu_value as AV. pose proof compton_value as CV. pose proof (ln_between 5000000 1 15424000 15425000 ltac:(vm_compute; reflexivity)) as LT. replace (5000000 / 1) with 5000000 in LT by field.
      pose proof (ln_between 238029 1000 5472000 5473000 ltac:(vm_compute; reflexivity)) as LA. destruct (psi_bounds (amu / 5000000) ltac:(lra)) as [P1 P2]. unfold log_radius. lra. }
    lra.
Qed.
