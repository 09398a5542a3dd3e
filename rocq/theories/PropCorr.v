(** * C41: corrections to the Bethe formula *)
From Coq Require Import ZArith QArith Reals Qreals List Bool Lra Lia.
From Verif Require Import Num NumR Structures DataElements Srim Calculations SpecData DataProofs BoundsProofs PropKin PropSrim.
Import ListNotations.
Local Open Scope R_scope.

(** ** Barkas factor *)
(** the Barkas function of the reduced velocity v lies between 0 and 0.33 *)
Lemma barkas_table v : 1 <= v -> v < 4 -> 0 < barkas_search (F:=R) barkas_rows v <= 33 / 100.
Proof.
  intros A B. unfold barkas_rows. cbn [barkas_search]. numR.
  destruct (Rleb_spec v (Rlit 2)) as [L|L]; [revert L; dec_norm; intros L; split; lra|].
  destruct (Rleb_spec v (Rlit 3)) as [M|M]; [revert L M; dec_norm; intros L M; split; lra|].
  destruct (Rleb_spec v (Rlit 4)) as [N|N]; [revert L M N; dec_norm; intros L M N; split; lra|].
  exfalso. apply N. dec_norm. lra.
Qed.

Theorem C41_barkas z eta zt : 0 <= z -> 0 < eta -> 0 < zt -> 1 <= bethek_barkas (F:=R) z eta zt.
Proof.
  intros Z E T. unfold bethek_barkas. cbv zeta.
  assert (FS : 0 < fine_structure (F:=R)) by (unfold fine_structure; numR; dec_norm; lra).
  numR. pose proof (sqrt_lt_R0 zt T) as ST. set (v := eta / (fine_structure * sqrt zt)).
  assert (V : 0 < v) by (unfold v; apply pos_quot; [exact E|apply Rmult_lt_0_compat; assumption]).
  clearbody v.
  replace (Rlit 4) with 4 by (dec_norm; lra). replace (Rlit 1) with 1 by (dec_norm; lra).
  replace (Rlit 1.0) with 1 by (dec_norm; lra). replace (Rlit 2.0) with 2 by (dec_norm; lra).
  match goal with |- 1 <= 1 + 2 * z * ?f / _ => set (g := f) end.
  assert (G : 0 <= g).
  { unfold g. destruct (Rleb_spec 4 v) as [A|A].
    - left. apply pos_quot; [dec_norm; lra|apply sqrt_lt_R0; exact V].
    - destruct (Rleb_spec 1 v) as [B|B]; [|cbn [andb]; dec_norm; lra].
      destruct (Rltb_spec v 4) as [C|C]; [|lra]. cbn [andb]. left. apply barkas_table; lra. }
  assert (0 <= 2 * z * g / (v * v * sqrt zt)); [|lra].
  apply Rmult_le_pos; [apply Rmult_le_pos; lra|]. left. apply Rinv_0_lt_compat. repeat apply Rmult_lt_0_compat; assumption.
Qed.
Print Assumptions C41_barkas.

(** slow projectiles (reduced velocity below 1) get no Barkas correction *)
Theorem C41_barkas_slow z eta zt : 0 < zt -> 0 < eta < fine_structure * sqrt zt -> bethek_barkas (F:=R) z eta zt = 1.
Proof.
  intros T [E H]. unfold bethek_barkas. cbv zeta.
  assert (FS : 0 < fine_structure (F:=R)) by (unfold fine_structure; numR; dec_norm; lra).
  numR. pose proof (sqrt_lt_R0 zt T) as ST. set (v := eta / (fine_structure * sqrt zt)).
  assert (D : 0 < fine_structure * sqrt zt) by (apply Rmult_lt_0_compat; assumption).
  assert (V : v < 1).
  { unfold v. apply Rmult_lt_reg_r with (fine_structure * sqrt zt); [exact D|]. unfold Rdiv. rewrite Rmult_assoc, Rinv_l by lra. lra. }
  replace (Rlit 4) with 4 by (dec_norm; lra). replace (Rlit 1) with 1 by (dec_norm; lra).
  destruct (Rleb_spec 4 v) as [A|_]; [lra|]. destruct (Rleb_spec 1 v) as [A|_]; [lra|]. cbn [andb].
  replace (Rlit 0.0) with 0 by (dec_norm; lra). unfold Rdiv. rewrite Rmult_0_r, Rmult_0_l. dec_norm. lra.
Qed.
Print Assumptions C41_barkas_slow.

(** ** The high-energy terms only add energy loss *)
Theorem C41_pair_production p t : 0 <= pair_production (F:=R) p t.
Proof.
  unfold pair_production. cbv zeta. numR. match goal with |- 0 <= if ?b then _ else _ => destruct b eqn:E end; [dec_norm; lra|].
  apply Rltb_false in E. replace (Rlit 0.0) with 0 in E by (dec_norm; lra). exact E.
Qed.
Print Assumptions C41_pair_production.

Theorem C41_bremsstrahlung p t : 0 < pA p -> 0 < tA t -> 0 <= pT p -> 0 <= bremsstrahlung (F:=R) p t.
Proof.
  intros A B T. unfold bremsstrahlung. cbv zeta.
  assert (FS : 0 < fine_structure (F:=R)) by (unfold fine_structure; numR; dec_norm; lra).
  assert (U : 0 < atomic_mass_unit (F:=R)) by (rewrite u0_eq; apply u0_pos).
  assert (DC : 0 < dedx_constant (F:=R)) by (unfold dedx_constant; numR; dec_norm; lra).
  assert (EM : 0 < electron_mass (F:=R)) by (unfold electron_mass; numR; dec_norm; lra).
  assert (HB : 0 < hbar (F:=R)) by (unfold hbar; numR; dec_norm; lra).
  assert (CL : 0 < c_light (F:=R)) by (unfold c_light; numR; dec_norm; lra).
  assert (PP : 0 < PI_ (F:=R)) by (unfold PI_; numR; dec_norm; lra).
  unfold power. numR.
  assert (G : 1 <= Rlit 1.0 + pT p / atomic_mass_unit).
  { assert (0 <= pT p / atomic_mass_unit) by (apply Rmult_le_pos; [exact T|left; now apply Rinv_0_lt_compat]). dec_norm. lra. }
  set (g := Rlit 1.0 + pT p / atomic_mass_unit) in *.
  set (RR := Rlit 1.18 * (exp (ln (pA p) * (Rlit 1.0 / Rlit 3.0)) + exp (ln (tA t) * (Rlit 1.0 / Rlit 3.0)))).
  assert (R0 : 0 < RR).
  { unfold RR. apply Rmult_lt_0_compat; [dec_norm; lra|]. apply Rplus_lt_0_compat; apply exp_pos. }
  assert (L : 0 < ln (1 + Rlit 2.0 * g * Rlit 0.1 * hbar * c_light / atomic_mass_unit / RR / pA p)).
  { rewrite <- ln_1. apply ln_increasing; [lra|].
    assert (0 < Rlit 2.0 * g * Rlit 0.1 * hbar * c_light / atomic_mass_unit / RR / pA p) by posi. lra. }
  set (L1 := ln (1 + _)) in *.
  match goal with |- 0 <= ?n / ?d => assert (DD : 0 < d) by posi; assert (NN : 0 <= n) end; [|apply Rmult_le_pos; [exact NN|left; now apply Rinv_0_lt_compat]].
  set (K := Rlit 16.0 * (dedx_constant * fine_structure * (electron_mass / atomic_mass_unit)) * g).
  assert (KP : 0 < K) by (unfold K; posi).
  replace (K * pZ p * pZ p * pZ p * pZ p * IZR (tZ t) * IZR (tZ t) * L1) with (K * L1 * ((pZ p * pZ p * IZR (tZ t)) * (pZ p * pZ p * IZR (tZ t)))) by ring.
  assert (KL : 0 < K * L1) by (apply Rmult_lt_0_compat; [exact KP|exact L]). apply Rmult_le_pos; [left; exact KL|]. apply (Rle_0_sqr (pZ p * pZ p * IZR (tZ t))).
Qed.
Print Assumptions C41_bremsstrahlung.

(** ** Density effect *)
(** the row used for an element and its six parameters (x0, x1, C, a, m, delta0), and the
    logarithm of the momentum in units of the mass *)
Definition density_row (zt : Z) : nat := Z.to_nat (Z.min zt 97 - 1).
Definition param (t : list dec) (zt : Z) : R := Rlit (nth (density_row zt) t 0%dec).
Definition log_momentum (beta : R) : R := ln (beta * (1 / sqrt (1 - beta * beta))) / (23025851 / 10000000).

Lemma param_get t zt : length t = 97%nat -> (1 <= zt)%Z -> tab1 (F:=R) t ((if (zt >? 97)%Z then 97 else zt) - 1) = Ok (param t zt).
Proof.
  intros L Z1. unfold tab1. assert (E : ((if (zt >? 97)%Z then 97 else zt) - 1)%Z = (Z.min zt 97 - 1)%Z) by (destruct (Z.gtb_spec zt 97); lia).
  rewrite E, (nth_aget t _ 0%dec) by lia. reflexivity.
Qed.
Theorem C41_density_value beta zt : (1 <= zt)%Z ->
  let x := log_momentum beta in
  bethek_density_effect (F:=R) beta zt = Ok
    (if Rlt_dec x (param density_effect_x0 zt) then
       if Rlt_dec 0 (param density_effect_del_0 zt) then param density_effect_del_0 zt * Rpow_c 10 (2 * (x - param density_effect_x0 zt)) else 0
     else if Rle_dec x (param density_effect_x1 zt) then
       46052 / 10000 * x - param density_effect_c zt + param density_effect_a zt * Rpow_c (param density_effect_x1 zt - x) (param density_effect_m zt)
     else 46052 / 10000 * x - param density_effect_c zt).
Proof.
  intros Z1. cbv zeta. destruct density_sizes as (S1 & S2 & S3 & S4 & S5 & S6). unfold bethek_density_effect. cbv zeta.
  rewrite !param_get by assumption. cbn [bind].
  assert (X : (flog (beta * (lit 1 / fsqrt (lit 1 - beta * beta))) / lit 2.3025851 : R)%num = log_momentum beta).
  { unfold log_momentum. numR. replace (Rlit 1) with 1 by (dec_norm; lra). replace (Rlit 2.3025851) with (23025851 / 10000000) by (dec_norm; lra). reflexivity. }
  rewrite X. set (x := log_momentum beta). numR. replace (Rlit 0) with 0 by (dec_norm; lra).
  destruct (Rltb_spec x (param density_effect_x0 zt)) as [A|A]; destruct (Rlt_dec x (param density_effect_x0 zt)) as [B|B]; try contradiction.
  - f_equal. destruct (Rltb_spec 0 (param density_effect_del_0 zt)) as [C|C]; destruct (Rlt_dec 0 (param density_effect_del_0 zt)) as [D|D]; try contradiction; [|reflexivity].
    replace (Rlit 10.0) with 10 by (dec_norm; lra). replace (Rlit 2) with 2 by (dec_norm; lra). reflexivity.
  - destruct (Rleb_spec (param density_effect_x0 zt) x) as [C|C]; [|exfalso; lra]. cbn [andb].
    replace (Rlit 4.6052) with (46052 / 10000) by (dec_norm; lra).
    destruct (Rleb_spec x (param density_effect_x1 zt)) as [D|D]; destruct (Rle_dec x (param density_effect_x1 zt)) as [E|E]; try contradiction; reflexivity.
Qed.
Print Assumptions C41_density_value.

Definition density_check (i : nat) : bool :=
  let g t := nth i t 0%dec in
  ((0 <? dec_mant (g density_effect_a)) && (0 <=? dec_mant (g density_effect_del_0)))%Z &&
  negb (Qle_bool (dec_Q (g density_effect_x1)) (dec_Q (g density_effect_x0))) &&
  Qle_bool (dec_Q (g density_effect_c)) ((46052 # 10000) * dec_Q (g density_effect_x1)).
Lemma density_checked : forallb density_check (seq 0 97) = true. Proof. vm_compute. reflexivity. Qed.
Lemma density_facts zt : (1 <= zt)%Z -> 0 < param density_effect_a zt /\ param density_effect_x0 zt < param density_effect_x1 zt /\
  param density_effect_c zt <= 46052 / 10000 * param density_effect_x1 zt.
Proof.
  intros Z1. pose proof density_checked as C. rewrite forallb_forall in C. specialize (C (density_row zt) ltac:(apply in_seq; unfold density_row; lia)).
  unfold density_check in C. rewrite !andb_true_iff in C. destruct C as (((C1 & C2) & C3) & C4). unfold param. split; [now apply Rlit_pos|]. split.
  - apply Rlit_lt. apply negb_true_iff. exact C3.
  - apply Qle_bool_iff in C4. rewrite !Rlit_Q. replace (46052 / 10000) with (Q2R (46052 # 10000)) by (unfold Q2R; simpl; lra). rewrite <- Q2R_mult. apply Qle_Rle. exact C4.
Qed.

(** not negative below x0 (and 0 for the elements without the conductor term), not negative above x1 *)
Theorem C41_density_low beta zt : (1 <= zt)%Z -> log_momentum beta < param density_effect_x0 zt ->
  exists v, bethek_density_effect (F:=R) beta zt = Ok v /\ 0 <= v /\ v <= Rmax 0 (param density_effect_del_0 zt) /\
    (param density_effect_del_0 zt <= 0 -> v = 0).
Proof.
  intros Z1 X. eexists. split; [apply C41_density_value; exact Z1|]. cbv zeta. destruct (Rlt_dec (log_momentum beta) _); [|contradiction].
  set (d := param density_effect_del_0 zt). destruct (Rlt_dec 0 d) as [D|D].
  - assert (P : 0 < Rpow_c 10 (2 * (log_momentum beta - param density_effect_x0 zt)) <= 1).
    { rewrite Rpow_pos by lra. unfold Rpower. split; [apply exp_pos|]. rewrite <- exp_0. left. apply exp_increasing.
      assert (0 < ln 10) by (rewrite <- ln_1; apply ln_increasing; lra). nra. }
    split; [apply Rmult_le_pos; lra|]. split; [|lra]. rewrite Rmax_right by lra. rewrite <- (Rmult_1_r d) at 2. apply Rmult_le_compat_l; lra.
  - split; [lra|]. split; [apply Rmax_l|reflexivity].
Qed.
Print Assumptions C41_density_low.
Theorem C41_density_high beta zt : (1 <= zt)%Z -> param density_effect_x1 zt < log_momentum beta ->
  exists v, bethek_density_effect (F:=R) beta zt = Ok v /\ 0 < v.
Proof.
  intros Z1 X. eexists. split; [apply C41_density_value; exact Z1|]. cbv zeta. destruct (density_facts zt Z1) as (A & B & C).
  destruct (Rlt_dec _ _); [lra|]. destruct (Rle_dec _ _); [lra|]. nra.
Qed.
Print Assumptions C41_density_high.

(** between x0 and x1 the sign is not guaranteed: for astatine it is below -3 just above x0, which
    adds more than 1.5 to the stopping number *)
Lemma log_momentum_of y : log_momentum (exp (y * (23025851 / 10000000)) / sqrt (1 + exp (y * (23025851 / 10000000)) * exp (y * (23025851 / 10000000)))) = y.
Proof.
  unfold log_momentum. set (s := exp _). assert (S : 0 < s) by apply exp_pos. assert (Q : 0 < 1 + s * s) by nra.
  pose proof (sqrt_lt_R0 _ Q) as RP. set (r := sqrt (1 + s * s)) in *. assert (RR : r * r = 1 + s * s) by (apply sqrt_sqrt; lra).
  replace (1 - s / r * (s / r)) with (/ r * / r) by (replace (s / r * (s / r)) with ((s * s) / (r * r)) by (field; lra); replace (s * s) with (r * r - 1) by lra; field; lra).
  rewrite sqrt_square by (left; now apply Rinv_0_lt_compat). replace (s / r * (1 / / r)) with s by (field; lra). unfold s. rewrite ln_exp. field.
Qed.
Theorem C41_density_sign_refuted : exists beta v, 0 < beta < 1 /\ bethek_density_effect (F:=R) beta 85 = Ok v /\ v < -3.
Proof.
  set (y := 43 / 100). set (s := exp (y * (23025851 / 10000000))). exists (s / sqrt (1 + s * s)).
  pose proof (C41_density_value (s / sqrt (1 + s * s)) 85 ltac:(lia)) as V. cbv zeta in V.
  assert (LM : log_momentum (s / sqrt (1 + s * s)) = y) by apply log_momentum_of.
  eexists. split; [|split; [exact V|]].
  - assert (S : 0 < s) by apply exp_pos. assert (Q : 0 < 1 + s * s) by nra. pose proof (sqrt_lt_R0 _ Q) as RP.
    split; [now apply pos_quot|]. apply Rmult_lt_reg_r with (sqrt (1 + s * s)); [exact RP|]. unfold Rdiv. rewrite Rmult_assoc, Rinv_l, Rmult_1_r, Rmult_1_l by lra.
    rewrite <- (sqrt_square s) at 1 by lra. apply sqrt_lt_1; nra.
  - clear V. rewrite LM. unfold param. change (density_row 85) with 84%nat.
    assert (E1 : nth 84 density_effect_x0 0%dec = 0.4300%dec) by reflexivity. assert (E2 : nth 84 density_effect_x1 0%dec = 4.0000%dec) by reflexivity.
    assert (E3 : nth 84 density_effect_c 0%dec = 6.4%dec) by reflexivity. assert (E4 : nth 84 density_effect_a 0%dec = 0.09000%dec) by reflexivity.
    assert (E5 : nth 84 density_effect_m 0%dec = 1.1111%dec) by reflexivity. rewrite E1, E2, E3, E4, E5. clear E1 E2 E3 E4 E5.
    dec_norm. unfold y. destruct (Rlt_dec _ _); [lra|]. destruct (Rle_dec _ _); [|lra].
    assert (P : Rpow_c (40000 / 10000 - 43 / 100) (11111 / 10000) <= 13).
    { rewrite Rpow_pos by lra. apply Rle_trans with (Rpower (40000 / 10000 - 43 / 100) 2); [apply Rle_Rpower; lra|].
      replace 2 with (INR 2) by (cbn [INR]; lra). rewrite Rpower_pow by lra. cbn [pow]. lra. }
    lra.
Qed.
Print Assumptions C41_density_sign_refuted.

(** ** A concrete case: carbon in a carbon target at 100 MeV/u *)
Example C41_case : 1 <= bethek_barkas (F:=R) 6 (1 / 2) 6 /\ exists v, bethek_density_effect (F:=R) (1 / 2) 6 = Ok v /\ 0 <= v.
Proof.
  split; [apply C41_barkas; lra|].
  destruct (C41_density_low (1 / 2) 6) as (v & E & P & _); [lia| |exists v; auto].
  assert (P0 : param density_effect_x0 6 = - (9 / 1000) \/ -1 / 10 < param density_effect_x0 6).
  { right. unfold param. change (density_row 6) with 5%nat. unfold density_effect_x0. cbn [nth]. dec_norm. lra. }
  assert (L : log_momentum (1 / 2) < - (1 / 10)).
  { unfold log_momentum. 
    assert (S : 8 / 10 < sqrt (1 - 1 / 2 * (1 / 2))) by (rewrite <- (sqrt_square (8 / 10)) by lra; apply sqrt_lt_1; lra).
    set (r := sqrt _) in *. assert (I : 1 / r <= 10 / 8) by (unfold Rdiv; rewrite Rmult_1_l; replace (10 * / 8) with (/ (8 / 10)) by field; apply Rinv_le_contravar; lra).
    assert (I0 : 0 < 1 / r) by (apply pos_quot; lra).
    assert (LE : ln (1 / 2 * (1 / r)) <= 1 / 2 * (1 / r) - 1).
    { pose proof (exp_ineq1_le (ln (1 / 2 * (1 / r)))) as H. rewrite exp_ln in H by lra. lra. }
    apply Rmult_lt_reg_r with (23025851 / 10000000); [lra|]. unfold Rdiv at 1. rewrite Rmult_assoc, Rinv_l, Rmult_1_r by lra. lra. }
  destruct P0; lra.
Qed.
