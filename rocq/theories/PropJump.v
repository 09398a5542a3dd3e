(** * C60: the stopping powers jump where the code changes from one formula to the next *)
From Coq Require Import ZArith Reals List Bool Lra Lia.
From Verif Require Import Num NumR Structures DataElements EnergyTable Srim Calculations Integrator Storage SpecData DataProofs BoundsProofs CacheFresh
  PropMaterial PropKin PropSrim PropCorr PropReact LnBounds PropFormula PropStrag Cases.
Import ListNotations.
Local Open Scope R_scope.

(** ** Nuclear stopping, at reduced energy 30: the formula above is lower by almost one percent than the one below *)
Lemma ln_from num den l h : ln_int num den = Some (l, h) -> IZR l / IZR SC <= ln (IZR num / IZR den) <= IZR h / IZR SC.
Proof.
  intros H. apply ln_int_ok in H. destruct H as (_ & _ & L & U). pose proof SC_pos as P. split.
  - apply Rmult_le_reg_r with (IZR SC); [exact P|]. replace (IZR l / IZR SC * IZR SC) with (IZR l) by (field; lra). exact L.
  - apply Rmult_le_reg_r with (IZR SC); [exact P|]. replace (IZR h / IZR SC * IZR SC) with (IZR h) by (field; lra). exact U.
Qed.
Lemma ln30 : 34011 / 10000 < ln 30 < 34012 / 10000.
Proof.
  destruct (ln_int 30 1) as [[l h]|] eqn:E; [|vm_compute in E; discriminate]. pose proof (ln_from 30 1 l h E) as B. replace (30 / 1) with 30 in B by lra.
  vm_compute in E. injection E as <- <-. unfold SC in B. change (2 ^ 50)%Z with 1125899906842624%Z in B. lra.
Qed.
Lemma ln35 : 355959 / 100000 < ln (1 + 1.1383 * 30).
Proof.
  destruct (ln_int 35149 1000) as [[l h]|] eqn:E; [|vm_compute in E; discriminate]. pose proof (ln_from 35149 1000 l h E) as B.
  replace (1 + 1.1383 * 30) with (35149 / 1000) by (decs; lra).
  vm_compute in E. injection E as <- <-. unfold SC in B. change (2 ^ 50)%Z with 1125899906842624%Z in B. lra.
Qed.
Lemma reduced_drop e : 30 < e -> zbl_reduced e < 0.991 * zbl_reduced 30.
Proof.
  intros E. unfold zbl_reduced. destruct (Rle_dec e 30); [lra|]. destruct (Rle_dec 30 30) as [_|]; [|lra]. pose proof ln30 as L30. pose proof ln35 as L35.
  assert (U : ln e / (2 * e) <= ln 30 / 60).
  { replace e with (30 * (e / 30)) by field. rewrite ln_mult by lra. pose proof (exp_ineq1_le (ln (e / 30))) as H. rewrite exp_ln in H by lra.
    set (x := e / 30) in *. assert (1 < x) by (unfold x; lra). clearbody x. set (y := ln x) in *. clearbody y. set (a := ln 30) in *. clearbody a.
    apply Rmult_le_reg_r with (60 * x); [lra|]. replace ((a + y) / (2 * (30 * x)) * (60 * x)) with (a + y) by (field; lra). replace (a / 60 * (60 * x)) with (a * x) by field. nra. }
  assert (P : Rpower 30 0.21226 < 24 / 10).
  { apply Rle_lt_trans with (Rpower 32 (1 / 4)).
    - unfold Rpower. apply Rlt_le. apply exp_increasing. assert (ln 30 < ln 32) by (apply ln_increasing; lra). decs. lra.
    - unfold Rpower. replace (24 / 10) with (exp (1 / 4 * (4 * ln (24 / 10)))) by (replace (1 / 4 * (4 * ln (24 / 10))) with (ln (24 / 10)) by field; apply exp_ln; lra).
      apply exp_increasing. apply Rmult_lt_compat_l; [lra|]. replace (4 * ln (24 / 10)) with (ln ((24 / 10) ^ 4)) by (rewrite ln_pow by lra; cbn [INR]; ring). apply ln_increasing; lra. }
  assert (Q : sqrt 30 < 54773 / 10000) by (rewrite <- (sqrt_square (54773 / 10000)) by lra; apply sqrt_lt_1; lra).
  assert (P0 : 0 < Rpower 30 0.21226) by apply exp_pos. assert (Q0 : 0 < sqrt 30) by (apply sqrt_lt_R0; lra).
  set (nn := ln (1 + 1.1383 * 30)) in *. clearbody nn. set (a := Rpower 30 0.21226) in *. clearbody a. set (b := sqrt 30) in *. clearbody b. set (c := ln 30) in *. clearbody c.
  apply Rle_lt_trans with (c / 60); [exact U|]. decs. apply Rmult_lt_reg_r with (2 * (30 + 1321 * / 100000 * a + 19593 * / 100000 * b)); [lra|].
  replace (991 * / 1000 * (nn / (2 * (30 + 1321 * / 100000 * a + 19593 * / 100000 * b))) * (2 * (30 + 1321 * / 100000 * a + 19593 * / 100000 * b))) with (991 / 1000 * nn) by (field; lra). nra.
Qed.
Theorem C60_nuclear p t : 0 < pA p -> 0 < pZ p -> 0 < tA t -> (1 <= tZ t)%Z ->
  exists T0, 0 < T0 /\ 0 < dedx_n_t (F:=R) (at_T p T0) t /\ forall T, T0 < T -> dedx_n_t (F:=R) (at_T p T) t < 0.991 * dedx_n_t (F:=R) (at_T p T0) t.
Proof.
  intros A Z1 M Z2. set (k := zbl_energy (pZ p) (pA p) (IZR (tZ t)) (tA t) (1000 * 1 * pA p)).
  assert (ZR : 1 <= IZR (tZ t)) by (apply IZR_le; exact Z2).
  assert (K : 0 < k) by (apply zbl_energy_pos; try assumption; lra).
  assert (KE : forall T, zbl_energy (pZ p) (pA p) (IZR (tZ t)) (tA t) (1000 * T * pA p) = k * T) by (intros T; unfold k, zbl_energy, Rdiv; ring).
  exists (30 / k). assert (T0 : 0 < 30 / k) by (apply pos_quot; lra). split; [exact T0|]. split; [apply C43_positive; assumption|].
  intros T HT. assert (E : forall x, 0 < x -> dedx_n_t (F:=R) (at_T p x) t = 8.4621e-15 * 1e-6 * (pZ p * IZR (tZ t) * pA p) / ((pA p + tA t) * (Rpower (pZ p) 0.23 + Rpower (IZR (tZ t)) 0.23)) * zbl_reduced (k * x) * (N_A / tA t)).
  { intros x X. rewrite C59_nuclear by (try exact X; assumption). unfold zbl. cbn [at_T pA pZ pT]. rewrite KE. reflexivity. }
  rewrite !E by lra. replace (k * (30 / k)) with 30 by (field; lra). assert (D : 30 < k * T) by (apply (Rmult_lt_compat_l k) in HT; [replace (k * (30 / k)) with 30 in HT by (field; lra); exact HT|exact K]).
  pose proof (reduced_drop _ D) as R0. set (g := zbl_reduced (k * T)) in *. set (h := zbl_reduced 30) in *. clearbody g h.
  assert (SP : 0 < Rpower (pZ p) 0.23 + Rpower (IZR (tZ t)) 0.23) by (apply Rplus_lt_0_compat; apply exp_pos). set (s := Rpower (pZ p) 0.23 + _) in *. clearbody s.
  set (c := 8.4621e-15 * 1e-6 * (pZ p * IZR (tZ t) * pA p) / ((pA p + tA t) * s)). assert (C : 0 < c).
  { unfold c. apply pos_quot; [|apply Rmult_lt_0_compat; lra]. apply Rmult_lt_0_compat; [decs; lra|]. apply Rmult_lt_0_compat; [apply Rmult_lt_0_compat; lra|exact A]. }
  set (n := N_A / tA t). assert (NP : 0 < n) by (unfold n; apply pos_quot; [unfold N_A; decs; lra|exact M]). clearbody c n.
  replace (0.991 * (c * h * n)) with (c * (0.991 * h) * n) by ring. apply Rmult_lt_compat_r; [exact NP|]. apply Rmult_lt_compat_l; [exact C|exact R0].
Qed.
Print Assumptions C60_nuclear.

(** ** The Barkas factor: nothing below v = 1, and 0.23 just below v = 4 against 0.45/sqrt 4 = 0.225 at v = 4 *)
Theorem C60_barkas z zt : 0 < z -> 0 < zt -> let e1 := alpha * sqrt zt in
  0 < e1 /\ (forall eta, 0 < eta < e1 -> bethek_barkas (F:=R) z eta zt = 1) /\ bethek_barkas (F:=R) z e1 zt = 1 + 0.66 * z / sqrt zt /\
  1 < bethek_barkas (F:=R) z (4 * e1) zt /\
  (forall eta, 3 * e1 < eta < 4 * e1 -> 1.02 * (bethek_barkas (F:=R) z (4 * e1) zt - 1) < bethek_barkas (F:=R) z eta zt - 1).
Proof.
  intros HZ HT e1. assert (SP : 0 < sqrt zt) by (apply sqrt_lt_R0; exact HT). assert (AP : 0 < alpha) by (unfold alpha; decs; lra).
  assert (E1 : 0 < e1) by (apply Rmult_lt_0_compat; assumption).
  assert (B : forall eta, bethek_barkas (F:=R) z eta zt = 1 + 2 * z * jackson_mccarthy (eta / e1) / ((eta / e1) ^ 2 * sqrt zt)) by (intros eta; apply C59_barkas; exact HT).
  assert (S4 : sqrt 4 = 2) by (replace 4 with (2 * 2) by ring; apply sqrt_square; lra).
  assert (V4 : bethek_barkas (F:=R) z (4 * e1) zt - 1 = 0.45 * z / (16 * sqrt zt)).
  { rewrite B. replace (4 * e1 / e1) with 4 by (field; lra). unfold jackson_mccarthy. destruct (Rlt_dec 4 1); [lra|]. destruct (Rle_dec 4 2); [lra|]. destruct (Rle_dec 4 3); [lra|]. destruct (Rlt_dec 4 4); [lra|].
    rewrite S4. decs. field. lra. }
  assert (W : forall eta x, 0 < x -> eta = x * e1 -> eta / e1 = x) by (intros eta x _ ->; field; lra).
  split; [exact E1|]. split; [|split; [|split]].
  - intros eta [H0 H1]. rewrite B. assert (X : eta / e1 < 1) by (apply Rmult_lt_reg_r with e1; [exact E1|]; replace (eta / e1 * e1) with eta by (field; lra); lra).
    unfold jackson_mccarthy. destruct (Rlt_dec (eta / e1) 1); [|lra]. unfold Rdiv. ring.
  - rewrite B. replace (e1 / e1) with 1 by (field; lra). unfold jackson_mccarthy. destruct (Rlt_dec 1 1); [lra|]. destruct (Rle_dec 1 2); [|lra]. decs. field. lra.
  - assert (0 < 0.45 * z / (16 * sqrt zt)) by (apply pos_quot; [apply Rmult_lt_0_compat; [decs; lra|exact HZ]|lra]). lra.
  - intros eta [H0 H1]. rewrite V4, B. set (v := eta / e1). assert (VL : 3 < v) by (unfold v; apply Rmult_lt_reg_r with e1; [exact E1|]; replace (eta / e1 * e1) with eta by (field; lra); exact H0).
    assert (VU : v < 4) by (unfold v; apply Rmult_lt_reg_r with e1; [exact E1|]; replace (eta / e1 * e1) with eta by (field; lra); exact H1). clearbody v.
    unfold jackson_mccarthy. destruct (Rlt_dec v 1); [lra|]. destruct (Rle_dec v 2); [lra|]. destruct (Rle_dec v 3); [lra|]. destruct (Rlt_dec v 4); [|lra].
    set (q := z / sqrt zt). assert (Q : 0 < q) by (apply pos_quot; assumption).
    replace (1.02 * (0.45 * z / (16 * sqrt zt))) with (1.02 * 0.45 / 16 * q) by (unfold q; decs; field; lra).
    replace (1 + 2 * z * (0.26 + (v - 3) * (0.23 - 0.26)) / (v ^ 2 * sqrt zt) - 1) with (2 * (0.26 + (v - 3) * (0.23 - 0.26)) / v ^ 2 * q) by (unfold q; decs; field; lra).
    apply Rmult_lt_compat_r; [exact Q|]. apply Rmult_lt_reg_r with (v ^ 2); [apply pow_lt; lra|].
    replace (2 * (0.26 + (v - 3) * (0.23 - 0.26)) / v ^ 2 * v ^ 2) with (2 * (0.26 + (v - 3) * (0.23 - 0.26))) by (field; lra). decs. nra.
Qed.
Print Assumptions C60_barkas.

Local Lemma ok_inj {A} (a b : A) : Ok a = Ok b -> a = b.
Proof. congruence. Qed.
(** ** Pair production and bremsstrahlung are switched on above 50000 MeV/u *)
Definition switched_off (c c' : Config R) : Prop :=
  corr_has c no_highenergy = false /\ corr_has c' no_highenergy = true /\ c_zeff c' = c_zeff c /\ c_calc c' = c_calc c /\
  corr_has c' no_barkas = corr_has c no_barkas /\ corr_has c' no_lindhard = corr_has c no_lindhard /\ corr_has c' no_shell_correction = corr_has c no_shell_correction.
Lemma brems_grows p t T : 0 < pA p -> 0 < pZ p -> 0 < tA t -> (1 <= tZ t)%Z -> 50000 < T ->
  0 < bremsstrahlung (F:=R) (at_T p 50000) t < bremsstrahlung (F:=R) (at_T p T) t.
Proof.
  intros A Z1 M Z2 HT. rewrite !C59_bremsstrahlung by (cbn [at_T pT pA]; try assumption; lra). cbn [at_T pA pZ pT].
  assert (Z3 : 0 < IZR (tZ t)) by (apply (IZR_lt 0); lia).
  assert (HB : 0 < hbar * c_light / 10) by (unfold hbar, c_light; numR; dec_norm; lra).
  set (r := 1.18 * (Rpower (pA p) (1 / 3) + Rpower (tA t) (1 / 3))). assert (RP : 0 < r) by (unfold r; apply Rmult_lt_0_compat; [decs; lra|apply Rplus_lt_0_compat; apply exp_pos]).
  set (h := hbar * c_light / 10) in *. clearbody r h. assert (MP : 0 < amu * pA p) by (apply Rmult_lt_0_compat; [unfold amu; decs; lra|exact A]). set (m := amu * pA p) in *.
  set (k := 16 / 3 * (dedx_constant / (4 * PI_)) * alpha * (mec2 / m) * (pZ p ^ 4 * IZR (tZ t) ^ 2 / tA t)).
  assert (K : 0 < k).
  { unfold k. apply Rmult_lt_0_compat; [apply Rmult_lt_0_compat; [apply Rmult_lt_0_compat|]|].
    - unfold dedx_constant, PI_. numR. dec_norm. lra.
    - unfold alpha. decs. lra.
    - apply pos_quot; [unfold mec2; decs; lra|exact MP].
    - apply pos_quot; [apply Rmult_lt_0_compat; apply pow_lt; assumption|exact M]. }
  clearbody k. assert (GI : lorentz 50000 < lorentz T).
  { unfold lorentz. apply Rplus_lt_compat_l. apply Rmult_lt_compat_r; [apply Rinv_0_lt_compat; unfold amu; decs; lra|exact HT]. }
  assert (G0 : 0 < lorentz 50000) by (unfold lorentz, amu; decs; lra). set (g := lorentz 50000) in *. set (g' := lorentz T) in *. clearbody g g' m.
  assert (W : 0 < 2 * g * h / (m * r) < 2 * g' * h / (m * r)).
  { split; [apply pos_quot; [apply Rmult_lt_0_compat; lra|apply Rmult_lt_0_compat; lra]|]. apply Rmult_lt_compat_r; [apply Rinv_0_lt_compat; apply Rmult_lt_0_compat; lra|]. apply Rmult_lt_compat_r; lra. }
  set (x := 2 * g * h / (m * r)) in *. set (y := 2 * g' * h / (m * r)) in *. clearbody x y.
  assert (L : 0 < ln (1 + x) < ln (1 + y)) by (split; [rewrite <- ln_1|]; apply ln_increasing; lra).
  split; [apply Rmult_lt_0_compat; [apply Rmult_lt_0_compat; assumption|lra]|].
  apply Rle_lt_trans with (k * g' * ln (1 + x)); [apply Rmult_le_compat_r; [lra|apply Rmult_le_compat_l; lra]|]. apply Rmult_lt_compat_l; [apply Rmult_lt_0_compat; lra|lra].
Qed.
Theorem C60_highenergy p t c c' I : 0 < pA p -> 0 < pZ p -> 0 < tA t -> (1 <= tZ t)%Z -> switched_off c c' ->
  exists b, 0 < b /\ forall T v v', 0 < T -> bethek_dedx_e_t (F:=R) (at_T p T) t c I = Ok v -> bethek_dedx_e_t (F:=R) (at_T p T) t c' I = Ok v' ->
    (T <= 50000 -> v = v') /\ (50000 < T -> v' + b < v).
Proof.
  intros A Z1 M Z2 (H1 & H2 & H3 & H4 & H5 & H6 & H7). exists (bremsstrahlung (F:=R) (at_T p 50000) t).
  split; [apply (brems_grows p t 50001); try assumption; lra|]. intros T v v' HT E E'.
  unfold bethek_dedx_e_t in E, E'. cbv zeta in E, E'. rewrite H5, H6, H7, H2 in E'. rewrite H1 in E.
  assert (ZE : z_effective (F:=R) (at_T p T) t c' = z_effective (F:=R) (at_T p T) t c) by (unfold z_effective; rewrite H3; reflexivity).
  rewrite ZE in E'. change (pT (at_T p T)) with T in E, E'.
  destruct (feqb T (lit 0)) eqn:F0. { exfalso. revert F0. numR. destruct (Reqb_spec T (Rlit 0)) as [X|]; [|discriminate]. revert X. dec_norm. lra. }
  destruct (bethek_density_effect _ _) as [d|]; [|discriminate E]. cbn [bind] in E, E'.
  destruct (if negb (corr_has c no_lindhard) then _ else _) as [L|]; [|discriminate E]. cbn [bind] in E, E'.
  cbn [negb] in E, E'. rewrite andb_false_r in E'. rewrite andb_true_r in E. apply ok_inj in E. apply ok_inj in E'.
  set (a := fmul _ _) in E'. change (a = v') in E'.
  match type of E with (if _ then ?x + _ + _ else _)%num = _ => change x with a in E end. clearbody a. subst v'.
  revert E. numR. replace (Rlit 50000.0) with 50000 by (dec_norm; lra). destruct (Rltb_spec 50000 T) as [G|G]; intros <-; split; intros HH; try (exfalso; lra); [|reflexivity].
  pose proof (brems_grows p t T A Z1 M Z2 HH) as BG. assert (PP : 0 <= pair_production (F:=R) (at_T p T) t) by (rewrite C59_pair_production by (cbn [at_T pT]; try assumption; lra); apply Rmax_l). lra.
Qed.
Print Assumptions C60_highenergy.
(** two functions that differ by a jump are not both continuous *)
Corollary C60_highenergy_discontinuous p t c c' I (f g : R -> R) : 0 < pA p -> 0 < pZ p -> 0 < tA t -> (1 <= tZ t)%Z -> switched_off c c' ->
  (forall T, 0 < T <= 60000 -> bethek_dedx_e_t (F:=R) (at_T p T) t c I = Ok (f T) /\ bethek_dedx_e_t (F:=R) (at_T p T) t c' I = Ok (g T)) ->
  ~ (continuity_pt f 50000 /\ continuity_pt g 50000).
Proof.
  intros A Z1 M Z2 SO FG [CF CG]. destruct (C60_highenergy p t c c' I A Z1 M Z2 SO) as (b & B & H).
  assert (J : forall T, 0 < T <= 60000 -> (T <= 50000 -> f T = g T) /\ (50000 < T -> g T + b < f T)) by (intros T HT; destruct (FG T HT) as [E1 E2]; apply (H T); try assumption; lra).
  assert (CD : continuity_pt (f - g)%F 50000) by (apply continuity_pt_minus; assumption).
  destruct (CD b B) as (d & D & HD). set (T := 50000 + Rmin (d / 2) 1). assert (M1 : 0 < Rmin (d / 2) 1) by (apply Rmin_glb_lt; lra). pose proof (Rmin_l (d / 2) 1). pose proof (Rmin_r (d / 2) 1).
  assert (TT : 0 < T <= 60000) by (unfold T; lra). specialize (HD T). cbn [dist R_met] in HD. unfold R_dist, minus_fct in HD.
  assert (X : D_x no_cond 50000 T /\ Rabs (T - 50000) < d) by (split; [split; [exact Coq.Init.Logic.I|unfold T; lra]|rewrite Rabs_right; unfold T; lra]).
  specialize (HD X). destruct (J T TT) as [_ J1]. destruct (J 50000 ltac:(lra)) as [J2 _]. specialize (J1 ltac:(unfold T; lra)). specialize (J2 ltac:(lra)).
  rewrite J2 in HD. apply Rabs_def2 in HD. lra.
Qed.
Print Assumptions C60_highenergy_discontinuous.

(** ** Hubert's effective charge is 0 below 2.5 MeV/u: carbon ions in carbon lose more than five of their six charges at once *)
Theorem C60_hubert c : c_zeff c = 3%Z -> let t := mkTarget 12 6 1 in
  (forall T, T < 2.5 -> z_effective (F:=R) (carbon T) t c = 0) /\ 5 < z_effective (F:=R) (carbon 2.5) t c.
Proof.
  intros HC t. split.
  - intros T HT. unfold z_effective. rewrite HC. cbn [Z.eqb Pos.eqb z_none z_pierce_blann z_anthony_landorf z_hubert]. unfold z_eff_Hubert. cbv zeta. cbn [carbon pT pZ]. numR. change (Rlit 2.5) with 2.5. destruct (Rltb_spec T 2.5) as [_|G]; [dec_norm; lra|]. exfalso. revert HT G. decs. lra.
  - pose proof (C59_hubert (carbon 2.5) t c ltac:(cbn; lra) ltac:(cbn [carbon pT]; lra) HC) as H. cbn [t tZ carbon pZ pT hubert_parameters Z.eqb Pos.eqb] in H.
    rewrite H. clear H. set (x1 := 2.584 + 1.91 * exp (- 0.03958 * 6)).
    assert (X1 : 0 < x1 < 45 / 10). { assert (0 < exp (- 0.03958 * 6) < 1) by (split; [apply exp_pos|rewrite <- exp_0; apply exp_increasing; decs; lra]). unfold x1. set (e := exp _) in *. clearbody e. decs. lra. }
    assert (P : 12 / 10 < Rpower 2.5 0.2433).
    { apply Rlt_le_trans with (Rpower 2.5 (1 / 5)).
      - unfold Rpower. replace (12 / 10) with (exp (1 / 5 * (5 * ln (12 / 10)))) by (replace (1 / 5 * (5 * ln (12 / 10))) with (ln (12 / 10)) by field; apply exp_ln; lra).
        apply exp_increasing. apply Rmult_lt_compat_l; [lra|]. replace (5 * ln (12 / 10)) with (ln ((12 / 10) ^ 5)) by (rewrite ln_pow by lra; cbn [INR]; ring). apply ln_increasing; [lra|decs; lra].
      - apply Rle_Rpower; decs; lra. }
    assert (Q : Rpower 6 0.3969 < 245 / 100).
    { apply Rle_lt_trans with (Rpower 6 (/ 2)); [apply Rle_Rpower; decs; lra|]. rewrite Rpower_sqrt by lra. rewrite <- (sqrt_square (245 / 100)) by lra. apply sqrt_lt_1; lra. }
    assert (Q0 : 0 < Rpower 6 0.3969) by apply exp_pos.
    assert (W : 339 / 100 < 6.933 * Rpower 2.5 0.2433 / Rpower 6 0.3969).
    { set (a := Rpower 2.5 0.2433) in *. set (b := Rpower 6 0.3969) in *. clearbody a b. apply Rmult_lt_reg_r with b; [exact Q0|]. replace (6.933 * a / b * b) with (6.933 * a) by (field; lra). decs. nra. }
    set (w := 6.933 * Rpower 2.5 0.2433 / Rpower 6 0.3969) in *. clearbody w.
    assert (LE : ln 28 < 339 / 100).
    { destruct (ln_int 28 1) as [[l h]|] eqn:E; [|vm_compute in E; discriminate]. pose proof (ln_from 28 1 l h E) as B. replace (28 / 1) with 28 in B by lra.
      vm_compute in E. injection E as <- <-. unfold SC in B. change (2 ^ 50)%Z with 1125899906842624%Z in B. lra. }
    assert (EW : exp (- w) < 1 / 28).
    { apply Rlt_le_trans with (exp (- ln 28)); [apply exp_increasing; lra|]. rewrite exp_Ropp, exp_ln by lra. lra. }
    pose proof (exp_pos (- w)). set (e := exp (- w)) in *. clearbody e x1. nra.
Qed.
Print Assumptions C60_hubert.

(** carbon in carbon: the default configuration and the one without the high-energy terms are defined on both sides of the jump *)
Example C60_case : let p := carbon 1 in let t := mkTarget 12 6 1 in let off := mkConfig 1 8 1 1 1 1 in
  0 < pA p /\ 0 < pZ p /\ 0 < tA t /\ (1 <= tZ t)%Z /\ switched_off conf off /\
  forall T, T = 50000 \/ T = 60000 -> (exists v, bethek_dedx_e_t (F:=R) (at_T p T) t conf 0 = Ok v) /\ (exists v, bethek_dedx_e_t (F:=R) (at_T p T) t off 0 = Ok v).
Proof.
  intros p t off. assert (W : forall T c, T = 50000 \/ T = 60000 -> exists v, bethek_dedx_e_t (F:=R) (at_T p T) t c 0 = Ok v).
  { intros T c HT. pose proof (bethek_ok (at_T p T) (graphite 1) c) as D. cbn [p at_T carbon pZ graphite m_atoms] in D.
    destruct D as [v D]; [unfold proj_Z_ok, p, at_T, carbon; cbn [pZ]; lra|unfold targets_ok, graphite; cbn [m_atoms]; repeat constructor; cbn [tZ]; lia|unfold ls_safe, p, at_T, carbon; cbn [pT]; pose proof PropStrag.glast_high; lra|].
    unfold bethek_dedx_e in D. cbn [graphite m_atoms m_I ofold] in D. fold t in D. fold p in D. destruct (bethek_dedx_e_t (at_T p T) t c 0) as [x|]; [exists x; reflexivity|discriminate D]. }
  cbn [p t carbon pA pZ tA tZ]. split; [lra|]. split; [lra|]. split; [lra|]. split; [lia|]. split.
  - unfold switched_off. repeat split.
  - intros T HT. split; apply W; exact HT.
Qed.
