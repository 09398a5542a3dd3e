(** * C40, C52: Winger's effective charge, where it is positive and where it is not, and the stopping power for any charge that is not negative *)
From Coq Require Import ZArith Reals List Bool Lra Lia.
From Verif Require Import Num NumR Structures DataElements EnergyTable Integrator Calculations Storage Catima SpecData DataProofs GridProofs
  BoundsProofs TotalProofs EnergyOutProofs Cases PropTables PropMaterial PropKin PropDedx PropSrim PropZeff PropCorr PropStrag PropQuad PropApi ApiTotal History BetheProofs BetheBracket PropBethe
  LnBounds PropFormula PropJump PropGlobal.
Import ListNotations.
Local Open Scope R_scope.

(** ** Bounds of logarithms *)
Ltac lnb n d H := let l := fresh in let h := fresh in let E := fresh in
  destruct (ln_int n d) as [[l h]|] eqn:E; [|vm_compute in E; discriminate]; pose proof (ln_from n d l h E) as H; vm_compute in E; injection E as <- <-;
  unfold SC in H; change (2 ^ 50)%Z with 1125899906842624%Z in H.
Lemma exp_at_most y q : 0 < q -> y <= ln q -> exp y <= q.
Proof. intros Q H. apply Rle_trans with (exp (ln q)); [|rewrite exp_ln by exact Q; lra]. destruct H as [H| ->]; [left; now apply exp_increasing|right; reflexivity]. Qed.
Lemma exp_at_least y q : 0 < q -> ln q <= y -> q <= exp y.
Proof. intros Q H. apply Rle_trans with (exp (ln q)); [rewrite exp_ln by exact Q; lra|]. destruct H as [H| ->]; [left; now apply exp_increasing|right; reflexivity]. Qed.
Lemma ln_26 : 9555 / 10000 < ln 2.6 < 9556 / 10000.
Proof. lnb 26%Z 10%Z B. replace 2.6 with (26 / 10) by (decs; lra). lra. Qed.
Lemma ln_28 : 10296 / 10000 < ln 2.8.
Proof. lnb 28%Z 10%Z B. replace 2.8 with (28 / 10) by (decs; lra). lra. Qed.
Lemma ln_4 : 13862 / 10000 < ln 4.
Proof. lnb 4%Z 1%Z B. replace 4 with (4 / 1) by lra. lra. Qed.
Lemma ln_84 : ln 84 < 44309 / 10000.
Proof. lnb 84%Z 1%Z B. replace 84 with (84 / 1) by lra. lra. Qed.
Lemma ln_92 : 45217 / 10000 < ln 92 < 45218 / 10000.
Proof. lnb 92%Z 1%Z B. replace 92 with (92 / 1) by lra. lra. Qed.
Lemma ln_108 : 46821 / 10000 < ln 108 < 46822 / 10000.
Proof. lnb 108%Z 1%Z B. replace 108 with (108 / 1) by lra. lra. Qed.
Lemma ln_109 : ln 109 < 46914 / 10000.
Proof. lnb 109%Z 1%Z B. replace 109 with (109 / 1) by lra. lra. Qed.

(** ** Where the charge is positive *)
(** Winger's formula is for heavy ions in targets that are not too light: up to charge 84 in hydrogen, up to
    uranium in helium and lithium, and every ion in heavier targets *)
Definition winger_pair (z : R) (zt : Z) : Prop :=
  1 <= z /\ ((1 <= zt)%Z /\ z <= 84 \/ (2 <= zt)%Z /\ z <= 92 \/ (4 <= zt)%Z /\ z <= 109).

Lemma cubic l M : 0 <= l <= M -> M <= 5 -> 0 <= - 0.2733 + 0.1089 * M - 0.001644 * M ^ 2 ->
  - 0.2733 * l + 0.1089 * l ^ 2 - 0.001644 * l ^ 3 <= M * (- 0.2733 + 0.1089 * M - 0.001644 * M ^ 2).
Proof.
  intros L M5 P. replace (- 0.2733 * l + 0.1089 * l ^ 2 - 0.001644 * l ^ 3) with (l * (- 0.2733 + 0.1089 * l - 0.001644 * l ^ 2)) by ring.
  set (w := - 0.2733 + 0.1089 * M - 0.001644 * M ^ 2) in *.
  assert (H : - 0.2733 + 0.1089 * l - 0.001644 * l ^ 2 <= w) by (unfold w; decs; nra).
  apply Rle_trans with (l * w); [apply Rmult_le_compat_l; lra|apply Rmult_le_compat_r; lra].
Qed.
Lemma falling l k : 0 <= l -> (l <= 46914 / 10000 /\ 13862 / 10000 <= k \/ l <= 45218 / 10000 /\ 10296 / 10000 <= k \/ l <= 44309 / 10000 /\ 9555 / 10000 <= k) ->
  - 0.2733 * l + 0.1089 * l ^ 2 - 0.001644 * l ^ 3 - 0.5755 * k - 0.05633 * k ^ 2 <= 19 / 100.
Proof.
  intros L [[A B]|[[A B]|[A B]]].
  - assert (C := cubic l (46914 / 10000) ltac:(lra) ltac:(lra) ltac:(decs; lra)). decs. assert ((13862 / 10000) ^ 2 <= k ^ 2) by (apply pow_incr; lra). lra.
  - assert (C := cubic l (45218 / 10000) ltac:(lra) ltac:(lra) ltac:(decs; lra)). decs. assert ((10296 / 10000) ^ 2 <= k ^ 2) by (apply pow_incr; lra). lra.
  - assert (C := cubic l (44309 / 10000) ltac:(lra) ltac:(lra) ltac:(decs; lra)). decs. assert ((9555 / 10000) ^ 2 <= k ^ 2) by (apply pow_incr; lra). lra.
Qed.
(** at least 0.37 Z and less than Z *)
Theorem C40_winger_positive p t c : c_zeff c = z_winger -> winger_pair (pZ p) (tZ t) -> 0 <= pT p ->
  0.37 * pZ p <= z_effective (F:=R) p t c < pZ p.
Proof.
  intros HC (Z1 & HZ) HT. rewrite (C59_winger p t c ltac:(lra) HC). cbv zeta. set (z := pZ p) in *. clearbody z.
  set (l := ln z). set (k := ln (if (tZ t =? 1)%Z then _ else _)).
  assert (L0 : 0 <= l) by (unfold l; rewrite <- ln_1; destruct Z1 as [Z1| <-]; [left; apply ln_increasing; lra|lra]).
  assert (LM : forall M, z <= M -> l <= ln M) by (intros M [H| ->]; unfold l; [left; apply ln_increasing; lra|right; reflexivity]).
  assert (K : 9555 / 10000 <= k /\ ((2 <= tZ t)%Z -> 10296 / 10000 <= k) /\ ((4 <= tZ t)%Z -> 13862 / 10000 <= k)).
  { pose proof ln_26. pose proof ln_28. pose proof ln_4. unfold k. destruct (Z.eqb_spec (tZ t) 1) as [E1|E1]; [repeat split; try lia; lra|].
    destruct (Z.eqb_spec (tZ t) 2) as [E2|E2]; [repeat split; try lia; lra|]. assert (T3 : (3 <= tZ t)%Z) by (destruct HZ as [[G1 _]|[[G1 _]|[G1 _]]]; lia).
    apply IZR_le in T3. assert (D : ln 2.8 < ln (IZR (tZ t))) by (apply ln_increasing; decs; lra). split; [lra|]. split; [intros _; lra|].
    intros T4. apply IZR_le in T4. destruct T4 as [T4|T4]; [assert (ln 4 < ln (IZR (tZ t))) by (apply ln_increasing; lra); lra|rewrite <- T4; lra]. }
  destruct K as (K1 & K2 & K4).
  assert (FA : - 0.2733 * l + 0.1089 * l ^ 2 - 0.001644 * l ^ 3 - 0.5755 * k - 0.05633 * k ^ 2 <= 19 / 100).
  { apply falling; [exact L0|]. pose proof ln_84. pose proof ln_92. pose proof ln_109. destruct HZ as [[G1 G2]|[[G1 G2]|[G1 G2]]]; pose proof (LM _ G2).
    - right; right; lra.
    - right; left. specialize (K2 G1). lra.
    - left. specialize (K4 G1). lra. }
  clearbody k. pose proof (velocity_range _ HT) as V. set (v := velocity (pT p)) in *. clearbody v.
  set (a := 0.5491 * _). set (b := 0.005447 * _). set (d := 0.0008261 * _). set (x := v / _).
  assert (RP : 0 < Rpower z 0.45) by apply exp_pos.
  assert (X0 : 0 <= x) by (unfold x; apply Rmult_le_pos; [lra|left; apply Rinv_0_lt_compat; apply Rmult_lt_0_compat; [decs; lra|exact RP]]).
  assert (D0 : 0 < d) by (unfold d; apply Rmult_lt_0_compat; [decs; lra|apply exp_pos]).
  assert (BX : b * x <= a).
  { apply Rle_trans with (0.005447 / 0.012 * exp (0.4295 * l - 1.091 * k)).
    - unfold b, x. replace (0.8795 * l - 1.091 * k) with ((0.4295 * l - 1.091 * k) + 0.45 * l) by (decs; lra). rewrite exp_plus. unfold Rpower. fold l.
      set (e1 := exp (0.4295 * l - 1.091 * k)). set (e2 := exp (0.45 * l)). assert (0 < e1) by apply exp_pos. assert (0 < e2) by apply exp_pos. clearbody e1 e2.
      replace (0.005447 * (e1 * e2) * (v / (0.012 * e2))) with (0.005447 / 0.012 * e1 * v) by (decs; field; lra). decs. nra.
    - unfold a. set (u := - 0.2733 * l + 0.1089 * l ^ 2 - 0.001644 * l ^ 3 - 0.5755 * k - 0.05633 * k ^ 2) in *.
      replace (0.4295 * l - 1.091 * k) with (u + (0.7028 * l - 0.1089 * l ^ 2 + 0.001644 * l ^ 3 - 0.5155 * k + 0.05633 * k ^ 2)) by (unfold u; decs; lra).
      rewrite exp_plus. set (e := exp (0.7028 * l - _ + _ - _ + _)). assert (0 < e) by apply exp_pos. clearbody e.
      assert (EU : exp u <= 12095 / 10000) by (apply exp_at_most; [lra|]; lnb 12095%Z 10000%Z B; lra). set (eu := exp u) in *. clearbody eu. decs. nra. }
  clearbody a b d x.
  assert (EX : exp (- 0.4662 - a * x + b * x ^ 2 - d * x ^ 3 - 0.00009293 * x ^ 4) <= 63 / 100).
  { apply exp_at_most; [lra|]. lnb 100%Z 63%Z B. replace (63 / 100) with (/ (100 / 63)) by lra. rewrite ln_Rinv by lra. assert (b * x ^ 2 <= a * x) by (replace (b * x ^ 2) with (b * x * x) by ring; apply Rmult_le_compat_r; lra).
    assert (0 <= d * x ^ 3) by (apply Rmult_le_pos; [lra|now apply pow_le]). assert (0 <= x ^ 4) by (now apply pow_le). decs. lra. }
  pose proof (exp_pos (- 0.4662 - a * x + b * x ^ 2 - d * x ^ 3 - 0.00009293 * x ^ 4)). set (ex := exp _) in *. clearbody ex. decs. nra.
Qed.
Print Assumptions C40_winger_positive.
Example C40_winger_case : winger_pair 92 6 /\ winger_pair 82 1 /\ 34 <= z_effective (F:=R) (mkProj 238 92 92 500) (mkTarget 12 6 1) (mkConfig 4 0 0 0 0 1).
Proof.
  assert (W : winger_pair 92 6) by (split; [lra|right; left; split; [lia|lra]]). split; [exact W|]. split; [split; [lra|left; split; [lia|lra]]|].
  pose proof (C40_winger_positive (mkProj 238 92 92 500) (mkTarget 12 6 1) (mkConfig 4 0 0 0 0 1) eq_refl W ltac:(cbn; lra)) as H. cbn [pZ] in H. revert H. decs. lra.
Qed.

(** ** Where it is not, and where it falls with energy *)
(** the exponent of the formula for a target of hydrogen, from bounds of its parts *)
Lemma exponent_bounds l k v z x ea1 ea2 eb1 eb2 x1 x2 :
  ln ea1 <= 0.7028 * l - 0.1089 * l ^ 2 + 0.001644 * l ^ 3 - 0.5155 * k + 0.05633 * k ^ 2 <= ln ea2 ->
  ln eb1 <= 0.8795 * l - 1.091 * k <= ln eb2 -> ln (1 / 10000) >= 2.848 * l - 0.2442 * l ^ 3 ->
  0 < ea1 -> 0 < ea2 -> 0 < eb1 -> 0 < eb2 -> 0 < x1 -> x1 <= x <= x2 -> x = v / (0.012 * Rpower z 0.45) ->
  - 0.4662 - 0.5491 * ea2 * x2 + 0.005447 * eb1 * x1 ^ 2 - 0.0000001 * x2 ^ 3 - 0.00009293 * x2 ^ 4 <=
  - 0.4662 - 0.5491 * exp (0.7028 * l - 0.1089 * l ^ 2 + 0.001644 * l ^ 3 - 0.5155 * k + 0.05633 * k ^ 2) * (v / (0.012 * Rpower z 0.45)) +
    0.005447 * exp (0.8795 * l - 1.091 * k) * (v / (0.012 * Rpower z 0.45)) ^ 2 - 0.0008261 * exp (2.848 * l - 0.2442 * l ^ 3) * (v / (0.012 * Rpower z 0.45)) ^ 3 -
    0.00009293 * (v / (0.012 * Rpower z 0.45)) ^ 4 <=
  - 0.4662 - 0.5491 * ea1 * x1 + 0.005447 * eb2 * x2 ^ 2.
Proof.
  intros [A1 A2] [B1 B2] D P1 P2 P3 P4 P5 [X1 X2] EX. rewrite <- EX. clear EX.
  apply exp_at_least in A1; [|exact P1]. apply exp_at_most in A2; [|exact P2]. apply exp_at_least in B1; [|exact P3]. apply exp_at_most in B2; [|exact P4].
  assert (D' : exp (2.848 * l - 0.2442 * l ^ 3) <= 1 / 10000) by (apply exp_at_most; lra). pose proof (exp_pos (2.848 * l - 0.2442 * l ^ 3)) as D0.
  set (ea := exp (0.7028 * l - _ + _ - _ + _)) in *. set (eb := exp (0.8795 * l - _)) in *. set (ed := exp (2.848 * l - _)) in *. clearbody ea eb ed.
  assert (Q2 : x1 ^ 2 <= x ^ 2 <= x2 ^ 2) by (split; apply pow_incr; lra). assert (Q3 : 0 <= x ^ 3 <= x2 ^ 3) by (split; [apply pow_le; lra|apply pow_incr; lra]).
  assert (Q4 : 0 <= x ^ 4 <= x2 ^ 4) by (split; [apply pow_le; lra|apply pow_incr; lra]). assert (Q1 : 0 <= x1 ^ 2) by (apply pow_le; lra).
  set (y2 := x ^ 2) in *. set (y3 := x ^ 3) in *. set (y4 := x ^ 4) in *. set (u2 := x1 ^ 2) in *. set (w2 := x2 ^ 2) in *. set (w3 := x2 ^ 3) in *. set (w4 := x2 ^ 4) in *. clearbody y2 y3 y4 u2 w2 w3 w4.
  assert (M1 : ea1 * x1 <= ea * x <= ea2 * x2) by (split; apply Rmult_le_compat; lra). assert (M2 : eb1 * u2 <= eb * y2 <= eb2 * w2) by (split; apply Rmult_le_compat; lra).
  assert (M3 : 0 <= ed * y3 <= 1 / 10000 * w3) by (split; [apply Rmult_le_pos; lra|apply Rmult_le_compat; lra]).
  decs. lra.
Qed.
Lemma velocity_10000 : 9963 / 10000 <= velocity 10000 <= 9964 / 10000.
Proof.
  destruct (velocity_sq 10000 ltac:(lra)) as [V2 V0]. assert (G : 1 / lorentz 10000 ^ 2 = amu ^ 2 / (amu + 10000) ^ 2) by (unfold lorentz, amu; decs; field; lra).
  rewrite G in V2. unfold amu in V2. revert V2. decs. intros V2. split; apply Rnot_lt_le; intros C; nra.
Qed.
Lemma velocity_150 : 508 / 1000 <= velocity 150 <= 509 / 1000.
Proof.
  destruct (velocity_sq 150 ltac:(lra)) as [V2 V0]. assert (G : 1 / lorentz 150 ^ 2 = amu ^ 2 / (amu + 150) ^ 2) by (unfold lorentz, amu; decs; field; lra).
  rewrite G in V2. unfold amu in V2. revert V2. decs. intros V2. split; apply Rnot_lt_le; intros C; nra.
Qed.

(** an ion of charge 108 at 10 GeV/u in hydrogen: the charge is negative *)
Lemma heavy_108 A Q t c : c_zeff c = z_winger -> tZ t = 1%Z -> z_effective (F:=R) (mkProj A 108 Q 10000) t c < - 10.
Proof.
  intros HC HT. rewrite (C59_winger (mkProj A 108 Q 10000) t c ltac:(cbn; lra) HC). cbv zeta. cbn [pZ pT]. rewrite HT. cbn [Z.eqb Pos.eqb].
  pose proof ln_108 as L. pose proof ln_26 as K.
  assert (RP : 8223 / 1000 <= Rpower 108 0.45 <= 8224 / 1000).
  { unfold Rpower. split; [apply exp_at_least; [lra|]; lnb 8223%Z 1000%Z B; decs; lra|apply exp_at_most; [lra|]; lnb 8224%Z 1000%Z B; decs; lra]. }
  pose proof velocity_10000 as V. set (l := ln 108) in *. clearbody l. set (k := ln 2.6) in *. clearbody k.
  assert (QQ : (46821 / 10000) ^ 2 <= l ^ 2 <= (46822 / 10000) ^ 2 /\ (46821 / 10000) ^ 3 <= l ^ 3 <= (46822 / 10000) ^ 3 /\ (9555 / 10000) ^ 2 <= k ^ 2 <= (9556 / 10000) ^ 2).
  { repeat split; apply pow_incr; lra. }
  destruct QQ as (Q2 & Q3 & Q4).
  assert (EA : ln (18750 / 10000) <= 0.7028 * l - 0.1089 * l ^ 2 + 0.001644 * l ^ 3 - 0.5155 * k + 0.05633 * k ^ 2 <= ln (18802 / 10000)).
  { split; [lnb 18750%Z 10000%Z B|lnb 18802%Z 10000%Z B]; decs; lra. }
  assert (EB : ln (2165 / 100) <= 0.8795 * l - 1.091 * k <= ln (2170 / 100)).
  { split; [lnb 2165%Z 100%Z B|lnb 2170%Z 100%Z B]; decs; lra. }
  assert (ED : ln (1 / 10000) >= 2.848 * l - 0.2442 * l ^ 3).
  { lnb 10000%Z 1%Z B. replace (1 / 10000) with (/ (10000 / 1)) by lra. rewrite ln_Rinv by lra. decs. lra. }
  assert (X : 1009 / 100 <= velocity 10000 / (0.012 * Rpower 108 0.45) <= 1010 / 100).
  { set (r := Rpower _ _) in *. clearbody r. set (v := velocity 10000) in *. clearbody v. replace (v / (0.012 * r)) with (v * 1000 / 12 / r) by (decs; field; lra).
    split; apply Rmult_le_reg_r with r; try lra; replace (v * 1000 / 12 / r * r) with (v * 1000 / 12) by (field; lra); nra. }
  destruct (exponent_bounds l k (velocity 10000) 108 _ (18750 / 10000) (18802 / 10000) (2165 / 100) (2170 / 100) (1009 / 100) (1010 / 100) EA EB ED
    ltac:(lra) ltac:(lra) ltac:(lra) ltac:(lra) ltac:(lra) X eq_refl) as [LO _].
  match goal with |- context [exp (?u - 0.00009293 * ?w)] => set (e := u - 0.00009293 * w) in * end. clearbody e.
  assert (E : 14 / 100 <= e) by (revert LO; decs; lra). pose proof (exp_ineq1_le e). lra.
Qed.
Theorem C40_winger_negative_refuted : exists p t c, c_zeff c = z_winger /\ pZ p = 108 /\ tZ t = 1%Z /\ 0 < pT p /\ z_effective (F:=R) p t c < - 10.
Proof. exists (mkProj 270 108 108 10000), (mkTarget 1 1 1), (mkConfig 4 0 0 0 0 1). do 3 (split; [reflexivity|]). split; [cbn; lra|]. now apply heavy_108. Qed.
Print Assumptions C40_winger_negative_refuted.
(** uranium in hydrogen has more than 88 charges at 150 MeV/u and fewer than 70 at 10 GeV/u, so the formula does not grow with the energy *)
Lemma uranium_10000 A Q t c : c_zeff c = z_winger -> tZ t = 1%Z -> z_effective (F:=R) (mkProj A 92 Q 10000) t c < 70.
Proof.
  intros HC HT. rewrite (C59_winger (mkProj A 92 Q 10000) t c ltac:(cbn; lra) HC). cbv zeta. cbn [pZ pT]. rewrite HT. cbn [Z.eqb Pos.eqb].
  pose proof ln_92 as L. pose proof ln_26 as K.
  assert (RP : 7650 / 1000 <= Rpower 92 0.45 <= 7652 / 1000).
  { unfold Rpower. split; [apply exp_at_least; [lra|]; lnb 7650%Z 1000%Z B; decs; lra|apply exp_at_most; [lra|]; lnb 7652%Z 1000%Z B; decs; lra]. }
  pose proof velocity_10000 as V. set (l := ln 92) in *. clearbody l. set (k := ln 2.6) in *. clearbody k.
  assert (QQ : (45217 / 10000) ^ 2 <= l ^ 2 <= (45218 / 10000) ^ 2 /\ (45217 / 10000) ^ 3 <= l ^ 3 <= (45218 / 10000) ^ 3 /\ (9555 / 10000) ^ 2 <= k ^ 2 <= (9556 / 10000) ^ 2).
  { repeat split; apply pow_incr; lra. }
  destruct QQ as (Q2 & Q3 & Q4).
  assert (EA : ln (19370 / 10000) <= 0.7028 * l - 0.1089 * l ^ 2 + 0.001644 * l ^ 3 - 0.5155 * k + 0.05633 * k ^ 2 <= ln (19400 / 10000)).
  { split; [lnb 19370%Z 10000%Z B|lnb 19400%Z 10000%Z B]; decs; lra. }
  assert (EB : ln (1880 / 100) <= 0.8795 * l - 1.091 * k <= ln (1882 / 100)).
  { split; [lnb 1880%Z 100%Z B|lnb 1882%Z 100%Z B]; decs; lra. }
  assert (ED : ln (1 / 10000) >= 2.848 * l - 0.2442 * l ^ 3).
  { lnb 10000%Z 1%Z B. replace (1 / 10000) with (/ (10000 / 1)) by lra. rewrite ln_Rinv by lra. decs. lra. }
  assert (X : 1084 / 100 <= velocity 10000 / (0.012 * Rpower 92 0.45) <= 1086 / 100).
  { set (r := Rpower _ _) in *. clearbody r. set (v := velocity 10000) in *. clearbody v. replace (v / (0.012 * r)) with (v * 1000 / 12 / r) by (decs; field; lra).
    split; apply Rmult_le_reg_r with r; try lra; replace (v * 1000 / 12 / r * r) with (v * 1000 / 12) by (field; lra); nra. }
  destruct (exponent_bounds l k (velocity 10000) 92 _ (19370 / 10000) (19400 / 10000) (1880 / 100) (1882 / 100) (1084 / 100) (1086 / 100) EA EB ED
    ltac:(lra) ltac:(lra) ltac:(lra) ltac:(lra) ltac:(lra) X eq_refl) as [LO _].
  match goal with |- context [exp (?u - 0.00009293 * ?w)] => set (e := u - 0.00009293 * w) in * end. clearbody e.
  assert (E : - (142 / 100) <= e) by (revert LO; decs; lra). assert (22 / 92 < exp e); [|lra].
  apply Rlt_le_trans with (exp (- (142 / 100))); [|destruct E as [E| <-]; [left; now apply exp_increasing|lra]].
  apply Rlt_le_trans with (241 / 1000); [lra|]. apply exp_at_least; [lra|]. lnb 1000%Z 241%Z B. replace (241 / 1000) with (/ (1000 / 241)) by lra. rewrite ln_Rinv by lra. lra.
Qed.
Lemma uranium_150 A Q t c : c_zeff c = z_winger -> tZ t = 1%Z -> 88 < z_effective (F:=R) (mkProj A 92 Q 150) t c.
Proof.
  intros HC HT. rewrite (C59_winger (mkProj A 92 Q 150) t c ltac:(cbn; lra) HC). cbv zeta. cbn [pZ pT]. rewrite HT. cbn [Z.eqb Pos.eqb].
  pose proof ln_92 as L. pose proof ln_26 as K.
  assert (RP : 7650 / 1000 <= Rpower 92 0.45 <= 7652 / 1000).
  { unfold Rpower. split; [apply exp_at_least; [lra|]; lnb 7650%Z 1000%Z B; decs; lra|apply exp_at_most; [lra|]; lnb 7652%Z 1000%Z B; decs; lra]. }
  pose proof velocity_150 as V. set (l := ln 92) in *. clearbody l. set (k := ln 2.6) in *. clearbody k.
  assert (QQ : (45217 / 10000) ^ 2 <= l ^ 2 <= (45218 / 10000) ^ 2 /\ (45217 / 10000) ^ 3 <= l ^ 3 <= (45218 / 10000) ^ 3 /\ (9555 / 10000) ^ 2 <= k ^ 2 <= (9556 / 10000) ^ 2).
  { repeat split; apply pow_incr; lra. }
  destruct QQ as (Q2 & Q3 & Q4).
  assert (EA : ln (19370 / 10000) <= 0.7028 * l - 0.1089 * l ^ 2 + 0.001644 * l ^ 3 - 0.5155 * k + 0.05633 * k ^ 2 <= ln (19400 / 10000)).
  { split; [lnb 19370%Z 10000%Z B|lnb 19400%Z 10000%Z B]; decs; lra. }
  assert (EB : ln (1880 / 100) <= 0.8795 * l - 1.091 * k <= ln (1882 / 100)).
  { split; [lnb 1880%Z 100%Z B|lnb 1882%Z 100%Z B]; decs; lra. }
  assert (ED : ln (1 / 10000) >= 2.848 * l - 0.2442 * l ^ 3).
  { lnb 10000%Z 1%Z B. replace (1 / 10000) with (/ (10000 / 1)) by lra. rewrite ln_Rinv by lra. decs. lra. }
  assert (X : 553 / 100 <= velocity 150 / (0.012 * Rpower 92 0.45) <= 555 / 100).
  { set (r := Rpower _ _) in *. clearbody r. set (v := velocity 150) in *. clearbody v. replace (v / (0.012 * r)) with (v * 1000 / 12 / r) by (decs; field; lra).
    split; apply Rmult_le_reg_r with r; try lra; replace (v * 1000 / 12 / r * r) with (v * 1000 / 12) by (field; lra); nra. }
  destruct (exponent_bounds l k (velocity 150) 92 _ (19370 / 10000) (19400 / 10000) (1880 / 100) (1882 / 100) (553 / 100) (555 / 100) EA EB ED
    ltac:(lra) ltac:(lra) ltac:(lra) ltac:(lra) ltac:(lra) X eq_refl) as [_ UP].
  match goal with |- context [exp (?u - 0.00009293 * ?w)] => set (e := u - 0.00009293 * w) in * end. clearbody e.
  assert (E : e <= - (318 / 100)) by (revert UP; decs; lra). assert (exp e <= 42 / 1000); [|lra].
  apply exp_at_most; [lra|]. lnb 1000%Z 42%Z B. replace (42 / 1000) with (/ (1000 / 42)) by lra. rewrite ln_Rinv by lra. lra.
Qed.
Theorem C40_winger_increasing_refuted : exists A Z Q T1 T2 t c, c_zeff c = z_winger /\ Z = 92 /\ tZ t = 1%Z /\ 0 < T1 < T2 /\
  z_effective (F:=R) (mkProj A Z Q T2) t c + 18 < z_effective (F:=R) (mkProj A Z Q T1) t c.
Proof.
  exists 238, 92, 92, 150, 10000, (mkTarget 1 1 1), (mkConfig 4 0 0 0 0 1). do 3 (split; [reflexivity|]). split; [lra|].
  pose proof (uranium_10000 238 92 (mkTarget 1 1 1) (mkConfig 4 0 0 0 0 1) eq_refl eq_refl). pose proof (uranium_150 238 92 (mkTarget 1 1 1) (mkConfig 4 0 0 0 0 1) eq_refl eq_refl). lra.
Qed.
Print Assumptions C40_winger_increasing_refuted.

(** ** The stopping power for every charge that is known not to be negative *)
(** .. or with the Barkas correction switched off: the charge enters the formula squared, so its sign matters in that correction only *)
Definition charge_known (p : Projectile R) (m : Material R) (c : Config R) : Prop :=
  corr_has c no_barkas = true \/ charge_formula (pQ p) c \/
  c_zeff c = z_winger /\ Forall (fun t => winger_pair (pZ p) (tZ t)) (m_atoms m) \/ c_zeff c = z_global /\ pZ p < 29.
Theorem C52_charge_known p m t c : 1 <= pZ p < 109 -> 10 <= pT p -> In t (m_atoms m) -> (1 <= tZ t <= 120)%Z -> corr_has c no_barkas = false -> charge_known p m c ->
  0 <= z_effective (F:=R) p t c.
Proof.
  intros HZ HT IN TZ NB [H|[H|[[H W]|[H W]]]].
  - congruence.
  - now apply C52_charge.
  - rewrite Forall_forall in W. pose proof (C40_winger_positive p t c H (W t IN) ltac:(lra)) as [P _]. revert P. decs. lra.
  - destruct p as [A z Q T]. cbn [pT pZ] in *. rewrite C40_global by exact H. pose proof (pb_range z T ltac:(lra) ltac:(lra)) as P.
    destruct (Rlt_dec 2000 T); [lra|]. destruct (Rlt_dec T 30); [lra|]. destruct (Rlt_dec z 29); lra.
Qed.
Print Assumptions C52_charge_known.
Theorem C52_bethe_known p m c : isotope p -> 0 < pA p -> 10 <= pT p -> (corr_has c no_lindhard = false -> ~ just_below_table_end (pT p)) ->
  known_material m -> charge_known p m c ->
  exists b, bethek_dedx_e (F:=R) p m c = Ok b /\ 0 <= b.
Proof.
  intros IP A T SF [(SOL & M & S) K] CF. unfold bethek_dedx_e.
  assert (SF' : corr_has c no_lindhard = false -> ls_safe (pT p)) by (intros H; apply safe_iff; auto).
  assert (P : forall l b, (forall t, In t l -> In t (m_atoms m) /\ (0 < tA t /\ (1 <= tZ t)%Z /\ 0 < tstn t) /\ (tZ t <= 120)%Z /\ plausible_I (m_I m) (tZ t)) -> 0 <= b ->
    exists v, ofold (fun sum t => d <- bethek_dedx_e_t p t c (m_I m) ;; Ok (fadd sum (fmul (wfrac m t) d))) l b = Ok v /\ 0 <= v).
  { induction l as [|t l IH]; intros b H B; [exists b; auto|]. cbn [ofold].
    destruct (H t (or_introl eq_refl)) as (INM & (TA & TZ & N) & TZ' & PI).
    destruct (bethe_target p t c (m_I m) IP A T SF' (conj TZ TZ') TA PI) as (v & E & V).
    { intros NB. apply (C52_charge_known p m t c); [apply IP|exact T|exact INM|lia|exact NB|exact CF]. }
    rewrite E. cbn [bind]. apply IH; [intros u U; apply H; now right|]. pose proof (wfrac_pos m t M TA N). numR. assert (0 <= wfrac m t * v) by (apply Rmult_le_pos; lra). lra. }
  apply P; [|numR; dec_norm; lra]. rewrite Forall_forall in S, K. auto.
Qed.
Print Assumptions C52_bethe_known.

(** positive whenever it has a value, and it has one away from the last 2e-15 MeV/u below the end of
    the tables *)
Theorem C52_positive_known p m c : isotope p -> 0 < pA p -> 0 < pT p -> known_material m -> charge_known p m c ->
  (forall d, dedx (F:=R) p m c = Ok d -> 0 < d) /\
  (~ just_below_table_end (pT p) -> positive (dedx (F:=R) p m c)).
Proof.
  intros IP A T KM CF. pose proof (isotope_ion p IP A) as IO. destruct KM as [SO K].
  assert (SF : forall d, dedx (F:=R) p m c = Ok d -> corr_has c no_lindhard = false -> ~ just_below_table_end (pT p)).
  { intros d E NL J. assert (C : dedx p m c = UB OutOfBounds).
    { apply C38_table_end_refuted; [apply IP|apply SO| |exact J|exact NL]. intros t IN. destruct SO as (_ & _ & F). rewrite Forall_forall in F. apply (F t IN). }
    rewrite C in E. discriminate E. }
  assert (D : exists v, dedx p m c = Ok v \/ just_below_table_end (pT p)).
  { destruct (Classical_Prop.classic (just_below_table_end (pT p))) as [J|J]; [exists 0; now right|].
    destruct (proj1 (C38_in_bounds p m c ltac:(apply IP) ltac:(intros t IN; destruct SO as (_ & _ & F); rewrite Forall_forall in F; apply (F t IN)) J)) as [v V]. exists v. now left. }
  assert (Q : forall d, dedx (F:=R) p m c = Ok d -> 0 < d).
  { intros d E. specialize (SF d E). assert (NP : 0 < dedx_n p m) by (apply nuclear_sum_pos; [exact T|exact A|destruct IP as [Z _]; lra|exact SO]).
    destruct (Rle_lt_dec (pT p) 10) as [L|H].
    { destruct (C42_dedx p m c T L IO SO) as (d' & E' & D'). congruence. }
    destruct (C52_bethe_known p m c IP A ltac:(lra) SF (conj SO K) CF) as (b & EB & B).
    destruct (Rle_lt_dec 30 (pT p)) as [H3|H3].
    - rewrite (C37_high p m c H3 b EB) in E. injection E as <-. lra.
    - destruct (sezi_pos p m c T IO SO) as (s & ES & PS). destruct (C37_between p m c H H3 s b ES EB) as (e & EE & _ & (EL & _) & _).
      rewrite EE in E. injection E as <-. assert (0 <= e); [|lra]. eapply Rle_trans; [|exact EL]. apply Rmin_glb; lra. }
  split; [exact Q|]. intros J. destruct D as (v & [E|C]); [|contradiction]. exists v. split; [exact E|now apply Q].
Qed.
Print Assumptions C52_positive_known.

(** ** The tables computed from it *)
(** all 600 ranges strictly increase *)
Theorem C52_ranges_known p m c rt : isotope p -> 0 < pA p -> known_material m -> charge_known p m c -> range_table p m c = Ok rt ->
  nth 0 rt 0 = 0 /\ forall i j, (i < j < 600)%nat -> nth i rt 0 < nth j rt 0.
Proof.
  intros IP A KM CF RT. apply (C28_whole_table p m c rt RT A). intros x d X E. pose proof (energy_pos 0 ltac:(lia)).
  exact (proj1 (C52_positive_known (at_T p x) m c IP A ltac:(cbn [at_T pT]; lra) KM CF) d E).
Qed.
Print Assumptions C52_ranges_known.
(** .. and so do the ranges returned for the 600 energies, whatever was computed before *)
Theorem C52_range_api_known (junk : nat -> R * R) h w p m c i j : exec_all junk h world0 = Ok w -> world_ok w -> legit_p p -> legit_t m ->
  isotope p -> known_material m -> charge_known p m c -> (i < j < 600)%nat ->
  exists ri rj wi wj, range junk (at_T p (energy i)) m c w = Ok (ri, wi) /\ range junk (at_T p (energy j)) m c w = Ok (rj, wj) /\ ri < rj.
Proof.
  intros E W LP LM IP KM CF IJ. destruct (range_at_node junk h w p m c i E W LP LM ltac:(lia)) as (rt & wi & RT & RI).
  destruct (range_at_node junk h w p m c j E W LP LM ltac:(lia)) as (rt' & wj & RT' & RJ).
  assert (rt' = rt) by congruence. subst rt'. do 4 eexists. split; [exact RI|]. split; [exact RJ|].
  apply (C52_ranges_known p m c rt); try assumption. apply LP.
Qed.
Print Assumptions C52_range_api_known.
(** the straggling never decreases up to the energy where the tables of Lindhard-Sorensen vanish *)
Theorem C52_straggling_known p m c st : isotope p -> 0 < pA p -> known_material m -> charge_known p m c ->
  (exists at_, angular_table p m c = Ok at_) -> straggling_table p m c = Ok st ->
  forall i, (S i < 600)%nat -> energy (S i) <= 400000 -> nth i st 0 <= nth (S i) st 0.
Proof.
  intros IP A KM CF [at_ HA] HS i I E4. apply (C28_variances p m c st at_ i HS HA (Rlt_le _ _ A) I).
  - intros x d X E. pose proof (energy_pos i ltac:(lia)). exact (proj1 (C52_positive_known (at_T p x) m c IP A ltac:(cbn [at_T pT]; lra) KM CF) d E).
  - intros x o X E. pose proof (energy_pos i ltac:(lia)).
    destruct (C50_material (at_T p x) m c IP ltac:(cbn [at_T pT]; lra) (proj1 KM)) as (v & E' & V). congruence.
Qed.
Print Assumptions C52_straggling_known.
(** the time of flight is positive for an ion that is slowed down *)
Theorem C52_time_of_flight_known p Eout m c tof : isotope p -> 0 < pA p -> known_material m -> 0 < m_rho m -> charge_known p m c ->
  0 <= Eout < pT p -> calculate_tof_from_E p Eout m c = Ok tof -> 0 < tof.
Proof.
  intros IP A KM RH CF EO H. unfold calculate_tof_from_E in H.
  destruct C26_library as [IN L]. rewrite L in H.
  destruct (quad _ (tof_integrand p m c) Eout (pT p)) as [r|] eqn:ER; [|discriminate H]. cbn [bind] in H. injection H as <-.
  assert (RP : 0 < r).
  { apply (C26_positive _ (tof_integrand p m c) Eout (pT p) r IN); [apply EO| |exact ER].
    intros x u X. unfold tof_integrand. destruct (dedx (at_T p x) m c) as [d|] eqn:ED; [|discriminate]. cbn [bind]. intros U. injection U as <-.
    assert (D : 0 < d) by (exact (proj1 (C52_positive_known (at_T p x) m c IP A ltac:(cbn [at_T pT]; lra) KM CF) d ED)).
    assert (B : 0 < beta_from_T x) by (apply C36_beta; lra). numR. apply pos_quot; [dec_norm; lra|]. apply Rmult_lt_0_compat; assumption. }
  unfold tof_scale. numR. apply pos_quot; [|apply Rmult_lt_0_compat; [unfold c_light; numR; dec_norm; lra|exact RH]].
  apply Rmult_lt_0_compat; [|exact A]. apply Rmult_lt_0_compat; [exact RP|dec_norm; lra].
Qed.
Print Assumptions C52_time_of_flight_known.


(** ** Concrete cases: carbon ions in water with Winger's formula and with the global formula *)
Definition with_formula (f : Z) : Config R := mkConfig f 0 0 0 0 1.
Lemma carbon_winger T th : charge_known (carbon T) (water th) (with_formula z_winger) /\ charge_known (carbon T) (water th) (with_formula z_global).
Proof.
  split; right; right; [left|right]; (split; [reflexivity|]); [|cbn; lra]. unfold water. cbn [m_atoms].
  repeat (apply Forall_cons; [split; [cbn; lra|left; cbn [tZ pZ carbon]; split; [lia|lra]]|]). apply Forall_nil.
Qed.
Example C52_case_known : positive (dedx (F:=R) (carbon 1000) (water 1) (with_formula z_winger)) /\ positive (dedx (F:=R) (carbon 1000) (water 1) (with_formula z_global)).
Proof.
  split; (apply C52_positive_known; [apply carbon_isotope|cbn; lra|cbn; lra|apply water_known|apply carbon_winger|]);
    unfold just_below_table_end; cbn [pT carbon]; pose proof eps_small; pose proof table_end_high; lra.
Qed.
Example C52_case_tof_known : exists tof, calculate_tof_from_E (carbon 1000) 500 (water 1) (with_formula z_winger) = Ok tof /\ 0 < tof.
Proof.
  pose proof glast_high. destruct (tof_ok (carbon 1000) (water 1) (with_formula z_winger) 500) as [tof E]; [apply carbon_legit|apply water_legit|cbn [carbon pT]; lra|lra|].
  exists tof. split; [exact E|]. apply (C52_time_of_flight_known (carbon 1000) 500 (water 1) (with_formula z_winger)); [apply carbon_isotope|cbn; lra|apply water_known|cbn; lra|apply carbon_winger|cbn; lra|exact E].
Qed.
Example C52_case_range_known : exists r1 r2 w1 w2, range junk0 (at_T (carbon 0) (energy 0)) (water 1) (with_formula z_winger) world0 = Ok (r1, w1) /\
    range junk0 (at_T (carbon 0) (energy 599)) (water 1) (with_formula z_winger) world0 = Ok (r2, w2) /\ r1 < r2.
Proof.
  apply (C52_range_api_known junk0 [] world0); [reflexivity|apply world_ok0|apply carbon_legit|apply water_legit|apply carbon_isotope|apply water_known|apply (proj1 (carbon_winger 0 1))|lia].
Qed.
