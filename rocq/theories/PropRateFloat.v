(** * C44, C45 in double precision: reaction, survival and production probabilities

    For every libm whose exp is within four units in the last place. Cross sections in mb, thicknesses in 10^23 atoms/cm^2;
    the probabilities are functions of x = sigma t / 10^4. *)
From Flocq Require Import Core BinarySingleNaN PrimFloat.
From Coq Require Import ZArith QArith Reals Floats SpecFloat Bool Lia Lra List.
From Verif Require Import Num NumR NumF Structures Reactions Binary64 Binary64Lit Binary64Num LibmZ LibmZProofs.
Import ListNotations.
Local Open Scope R_scope.

Lemma tiny_small : tiny <= / 10 ^ 300.
Proof.
  unfold tiny. apply Rle_trans with (bpow radix2 (-1000)); [apply bpow_le; lia|]. change (-1000)%Z with (- (1000))%Z. rewrite bpow_opp. apply Rinv_le; [apply pow_lt; lra|].
  replace 300%nat with (3 * 100)%nat by reflexivity. rewrite pow_mult. change 1000%Z with (Z.of_nat (10 * 100)). rewrite bpow_powerRZ, <- pow_powerRZ, pow_mult. apply pow_incr. simpl. lra.
Qed.
(** a product of three doubles *)
Lemma prod3 a b c : fin a -> fin b -> fin c -> Rabs (val a) <= 10 ^ 9 -> Rabs (val b) <= 10 ^ 9 -> Rabs (val c) <= 10 ^ 9 ->
  fin (a * b * c) /\ Rabs (val (a * b * c) - val a * val b * val c) <= 21 / 10 * u * Rabs (val a * val b * val c) + / 10 ^ 280.
Proof.
  intros FA FB FC A B C. pose proof big_ge as BG. pose proof tiny_small as TS. pose proof tiny_pos as TP. pose proof u_pos as UP. assert (U1 : u <= / 10 ^ 15) by (unfold u; lra).
  assert (AB : Rabs (val a * val b) <= 10 ^ 18). { rewrite Rabs_mult. replace (10 ^ 18) with (10 ^ 9 * 10 ^ 9) by ring. apply Rmult_le_compat; auto using Rabs_pos. }
  destruct (mul_val a b FA FB ltac:(lra)) as [F1 V1]. pose proof (rnd_error (val a * val b)) as E1. rewrite <- V1 in E1. set (p := val (a * b)) in *. set (q := val a * val b) in *.
  assert (P : Rabs p <= Rabs q + (u * Rabs q + tiny)). { replace p with ((p - q) + q) by ring. eapply Rle_trans; [apply Rabs_triang|]. lra. }
  pose proof (Rabs_pos q) as Q0. pose proof (Rabs_pos (val c)) as C0. assert (P2 : Rabs p <= 2 * 10 ^ 18) by nra.
  assert (PC : Rabs (p * val c) <= 10 ^ 28). { rewrite Rabs_mult. apply Rle_trans with (2 * 10 ^ 18 * 10 ^ 9); [apply Rmult_le_compat; auto using Rabs_pos|lra]. }
  destruct (mul_val (a * b) c F1 FC ltac:(fold p; lra)) as [F2 V2]. fold p in V2. split; [exact F2|]. pose proof (rnd_error (p * val c)) as E2. rewrite <- V2 in E2.
  replace (val (a * b * c) - q * val c) with ((val (a * b * c) - p * val c) + (p - q) * val c) by ring. eapply Rle_trans; [apply Rabs_triang|]. rewrite !Rabs_mult in *. 
  assert (X1 : Rabs (p - q) * Rabs (val c) <= (u * Rabs q + tiny) * Rabs (val c)) by (apply Rmult_le_compat_r; assumption).
  assert (X2 : Rabs p * Rabs (val c) <= (Rabs q + (u * Rabs q + tiny)) * Rabs (val c)) by (apply Rmult_le_compat_r; assumption).
  assert (X3 : tiny * Rabs (val c) <= / 10 ^ 300 * 10 ^ 9) by (apply Rmult_le_compat; lra). set (m := Rabs q * Rabs (val c)) in *. assert (M0 : 0 <= m) by (apply Rmult_le_pos; assumption). 
  assert (X4 : u * (Rabs p * Rabs (val c)) <= u * (m + u * m + tiny * Rabs (val c))) by (apply Rmult_le_compat_l; [lra|]; unfold m in *; lra).
  assert (X5 : u * (u * m) <= / 10 ^ 15 * (u * m)) by (apply Rmult_le_compat_r; [apply Rmult_le_pos; lra|lra]).
  assert (X6 : u * (tiny * Rabs (val c)) <= / 10 ^ 15 * (/ 10 ^ 300 * 10 ^ 9)) by (apply Rmult_le_compat; try lra; apply Rmult_le_pos; lra).
  assert (X7 : / 10 ^ 15 * (/ 10 ^ 300 * 10 ^ 9) + / 10 ^ 300 * 10 ^ 9 + / 10 ^ 300 <= / 10 ^ 280) by lra.
  assert (X8 : 0 <= u * m) by (apply Rmult_le_pos; lra). unfold m in *. lra.
Qed.
(** the value of exp at a product that is near -x *)
Lemma exp_near_x lm y x d : exp_accurate lm -> fin y -> 0 <= x <= 600 -> Rabs (val y + x) <= 4 * u * x + d -> 0 <= d <= / 10 ^ 20 ->
  fin (lm_exp lm y) /\ Rabs (val (lm_exp lm y) - exp (- x)) <= (9 + 9 * x) * u * exp (- x).
Proof.
  intros AC FY X Y D. pose proof u_pos as UP. assert (U1 : / 10 ^ 16 <= u <= 12 / 10 ^ 17) by (unfold u; lra).
  assert (D1 : Rabs (val y + x) <= / 10 ^ 12) by nra. assert (B : -700 <= val y <= 700) by (apply Rabs_le_inv in D1; lra).
  destruct (AC y FY B) as [F E]. split; [exact F|]. pose proof (exp_near (val y + x) ltac:(lra)) as EN. pose proof (exp_pos (- x)) as EP.
  assert (EY : exp (val y) = exp (- x) * exp (val y + x)) by (rewrite <- exp_plus; f_equal; ring). set (w := exp (val y + x)) in *. set (e := exp (- x)) in *.
  assert (W : Rabs (w - 1) <= 8 * u * x + 2 * d) by lra.
  replace (val (lm_exp lm y) - e) with ((val (lm_exp lm y) - exp (val y)) + e * (w - 1)) by (rewrite EY; ring). eapply Rle_trans; [apply Rabs_triang|]. rewrite Rabs_mult, (Rabs_pos_eq e) by lra.
  assert (W1 : w <= 1 + / 10 ^ 11) by (apply Rabs_le_inv in W; nra).
  assert (T1 : 4 * (2 * u) * exp (val y) <= e * (8 * u * (1 + / 10 ^ 11))). { rewrite EY. assert (e * w <= e * (1 + / 10 ^ 11)) by (apply Rmult_le_compat_l; lra). nra. }
  assert (T2 : e * Rabs (w - 1) <= e * (8 * u * x + 2 * d)) by (apply Rmult_le_compat_l; lra).
  apply Rle_trans with (e * (8 * u * (1 + / 10 ^ 11) + (8 * u * x + 2 * d))); [lra|]. replace ((9 + 9 * x) * u * e) with (e * ((9 + 9 * x) * u)) by ring. apply Rmult_le_compat_l; [lra|]. nra.
Qed.
Lemma x_exp x : 0 <= x -> x * exp (- x) <= 1 /\ 0 < exp (- x) <= 1.
Proof.
  intros X. pose proof (exp_pos (- x)) as P. pose proof (exp_ineq1_le x) as A. rewrite exp_Ropp in *. pose proof (exp_pos x) as Q. split.
  - apply Rmult_le_reg_r with (exp x); [assumption|]. rewrite Rmult_assoc, Rinv_l by lra. lra.
  - split; [assumption|]. rewrite <- Rinv_1. apply Rinv_le; lra.
Qed.
(** 0.0001 as a double *)
Lemma c4_val (lm : Libm) : fin (lit (Num := NumF lm) 0.0001) /\ Rabs (val (lit (Num := NumF lm) 0.0001) - 1 / 10000) <= u / 10000.
Proof.
  cbn [lit NumF]. assert (E : Rlit 0.0001 = 1 / 10000) by (dec_norm; lra). destruct (F_lit_val 0.0001) as [F V]; [rewrite E; pose proof big_ge; rewrite Rabs_pos_eq by lra; lra|]. split; [exact F|]. rewrite V, E.
  eapply Rle_trans; [apply rnd_relative|]; rewrite Rabs_pos_eq by lra; [|lra]. pose proof tiny_small. unfold small. apply Rle_trans with (bpow radix2 (-20)); [apply bpow_le; lia|]. change (bpow radix2 (-20)) with (/ 1048576). lra.
Qed.
Lemma c4n_val (lm : Libm) : fin (lit (Num := NumF lm) (-0.0001)) /\ Rabs (val (lit (Num := NumF lm) (-0.0001)) + 1 / 10000) <= u / 10000.
Proof.
  cbn [lit NumF]. assert (E : Rlit (-0.0001) = - (1 / 10000)) by (dec_norm; lra). destruct (F_lit_val (-0.0001)) as [F V]; [rewrite E; pose proof big_ge; rewrite Rabs_Ropp, Rabs_pos_eq by lra; lra|]. split; [exact F|]. rewrite V, E.
  replace (rnd (- (1 / 10000)) + 1 / 10000) with (rnd (- (1 / 10000)) - (- (1 / 10000))) by ring. eapply Rle_trans; [apply rnd_relative|]; rewrite Rabs_Ropp, Rabs_pos_eq by lra; [|lra]. unfold small. apply Rle_trans with (bpow radix2 (-20)); [apply bpow_le; lia|]. change (bpow radix2 (-20)) with (/ 1048576). lra.
Qed.
Lemma near_exponent c s x p : Rabs (c - 1 / 10000) <= u / 10000 -> 0 <= s -> x = s / 10000 -> Rabs (p + s * c) <= 21 / 10 * u * (s * c) + / 10 ^ 280 -> Rabs (p + x) <= 4 * u * x + / 10 ^ 280.
Proof.
  intros C S -> P. pose proof u_pos as UP. assert (U1 : u <= / 10 ^ 15) by (unfold u; lra). replace (p + s / 10000) with ((p + s * c) + s * (1 / 10000 - c)) by field.
  eapply Rle_trans; [apply Rabs_triang|]. rewrite Rabs_mult, (Rabs_pos_eq s), (Rabs_minus_sym (1 / 10000)) by lra. assert (X1 : s * Rabs (c - 1 / 10000) <= s * (u / 10000)) by (apply Rmult_le_compat_l; assumption).
  apply Rabs_le_inv in C. assert (X2 : s * c <= s * ((1 + / 10 ^ 15) / 10000)) by (apply Rmult_le_compat_l; lra). assert (X3 : u * (s * c) <= u * (s * ((1 + / 10 ^ 15) / 10000))) by (apply Rmult_le_compat_l; lra). assert (0 <= u * s) by (apply Rmult_le_pos; lra). nra.
Qed.

(** ** Reaction and survival *)
Theorem C44_binary64 lm sigma t : exp_accurate lm -> fin sigma -> fin t -> 0 <= val sigma <= 10 ^ 9 -> 0 <= val t <= 10 ^ 9 ->
  let x := val sigma * val t / 10000 in x <= 600 ->
  let s := nonreaction_rate_st (N := NumF lm) sigma t in let r := reaction_rate (N := NumF lm) sigma t in
  fin s /\ fin r /\ Rabs (val s - exp (- x)) <= (9 + 9 * x) * u * exp (- x) /\ Rabs (val r - (1 - exp (- x))) <= 20 * u /\
  0 < val s <= 1 + 10 * u /\ - 10 * u <= val r <= 1 /\ Rabs (val r + val s - 1) <= 2 * u.
Proof.
  intros AC FS FT S T x X s r. pose proof u_pos as UP. assert (U1 : / 10 ^ 16 <= u <= 12 / 10 ^ 17) by (unfold u; lra). pose proof tiny_small as TS. pose proof tiny_pos as TP.
  assert (ST : 0 <= val sigma * val t) by (apply Rmult_le_pos; lra). assert (X0 : 0 <= x) by (unfold x; lra).
  destruct (c4_val lm) as [FC C]. set (c := lit (Num := NumF lm) 0.0001) in *. destruct (opp_val sigma FS) as [FO VO].
  assert (CA : Rabs (val c) <= 1) by (apply Rabs_le_inv in C; apply Rabs_le; lra).
  destruct (prod3 (- sigma) t c FO FT FC) as [FP P]; [rewrite VO, Rabs_Ropp, Rabs_pos_eq; lra|rewrite Rabs_pos_eq; lra|lra|].
  assert (CP : 0 <= val c) by (apply Rabs_le_inv in C; lra). rewrite VO in P. set (y := (- sigma * t * c)%float) in *.
  assert (Y : Rabs (val y + x) <= 4 * u * x + / 10 ^ 280).
  { apply (near_exponent (val c) (val sigma * val t)); [exact C|exact ST|reflexivity|]. replace (val y - - val sigma * val t * val c) with (val y + val sigma * val t * val c) in P by ring.
    replace (Rabs (- val sigma * val t * val c)) with (val sigma * val t * val c) in P; [exact P|]. replace (- val sigma * val t * val c) with (- (val sigma * val t * val c)) by ring. rewrite Rabs_Ropp, Rabs_pos_eq; [reflexivity|]. apply Rmult_le_pos; assumption. }
  destruct (exp_near_x lm y x (/ 10 ^ 280) AC FP (conj X0 X) Y ltac:(lra)) as [FE E]. change (lm_exp lm y) with s in FE, E.
  destruct (x_exp x X0) as [XE [EP E1]]. set (e := exp (- x)) in *. split; [exact FE|].
  assert (SE : Rabs (val s - e) <= 18 * u). { eapply Rle_trans; [exact E|]. replace ((9 + 9 * x) * u * e) with (u * (9 * e + 9 * (x * e))) by ring. nra. }
  assert (SB : 0 < val s <= 1 + 10 * u).
  { apply Rabs_le_inv in E. split.
    - assert ((9 + 9 * x) * u < 1) by nra. nra.
    - assert (x * e <= 1 - e). { pose proof (exp_ineq1_le x) as Q. assert (EE : e * exp x = 1) by (unfold e; rewrite <- exp_plus, Rplus_opp_l; apply exp_0). nra. }
      assert (e + (9 + 9 * x) * u * e <= e + u * (9 * e + 9 * (1 - e))) by nra. lra. }
  assert (F1 : fin (lit (Num := NumF lm) 1.0) /\ val (lit (Num := NumF lm) 1.0) = 1).
  { cbn [lit NumF]. destruct (F_lit_val 1.0) as [F V]; [replace (Rlit 1.0) with 1 by (dec_norm; lra); pose proof big_ge; rewrite Rabs_R1; lra|]. split; [exact F|]. rewrite V. replace (Rlit 1.0) with (bpow radix2 0) by (dec_norm; simpl; lra). rewrite rnd_bpow by lia. reflexivity. }
  destruct F1 as [F1 V1]. pose proof big_ge as BG.
  destruct (sub_val (lit (Num := NumF lm) 1.0) s F1 FE) as [FR VR]; [rewrite V1; apply Rabs_le; lra|]. change (lit (Num := NumF lm) 1.0 - s)%float with r in FR, VR. rewrite V1 in VR. split; [exact FR|]. split; [exact E|].
  pose proof (rnd_error (1 - val s)) as RE. rewrite <- VR in RE. assert (A1 : Rabs (1 - val s) <= 1) by (apply Rabs_le; lra). assert (R2 : Rabs (val r - (1 - val s)) <= 11 / 10 * u) by nra.
  split. { replace (val r - (1 - e)) with ((val r - (1 - val s)) - (val s - e)) by ring. eapply Rle_trans; [apply Rabs_triang|]. rewrite Rabs_Ropp. lra. }
  split; [exact SB|]. split.
  - split.
    + apply Rle_trans with (rnd (- (10 * u))).
      * replace (10 * u) with (val 0x1.4p-50%float). { rewrite <- (proj2 (opp_val 0x1.4p-50%float ltac:(apply fin_SF; vm_compute; exact I))), rnd_val, (proj2 (opp_val 0x1.4p-50%float ltac:(apply fin_SF; vm_compute; exact I))). rewrite val_SF. vm_compute Prim2SF. cbn. unfold u. lra. }
        rewrite val_SF. vm_compute Prim2SF. cbn. unfold u. lra.
      * rewrite VR. apply rnd_le. lra.
    + rewrite VR. replace 1 with (rnd (bpow radix2 0)) at 2 by (rewrite rnd_bpow by lia; reflexivity). apply rnd_le. simpl. lra.
  - replace (val r + val s - 1) with (val r - (1 - val s)) by ring. lra.
Qed.
Print Assumptions C44_binary64.

(** ** Production *)
(** exp (-0.0001 * b * t) as computed *)
Lemma attenuation lm b t : exp_accurate lm -> fin b -> fin t -> 0 <= val b <= 10 ^ 9 -> 0 <= val t <= 10 ^ 9 -> let x := val b * val t / 10000 in x <= 600 ->
  let s := lm_exp lm (lit (Num := NumF lm) (-0.0001) * b * t)%float in
  fin s /\ 0 < val s <= 1 + 10 * u /\ Rabs (val s - exp (- x)) <= (9 + 9 * x) * u * exp (- x) /\ Rabs (val s - exp (- x)) <= 18 * u.
Proof.
  intros AC FS FT S T x X s. pose proof u_pos as UP. assert (U1 : / 10 ^ 16 <= u <= 12 / 10 ^ 17) by (unfold u; lra).
  assert (ST : 0 <= val b * val t) by (apply Rmult_le_pos; lra). assert (X0 : 0 <= x) by (unfold x; lra).
  destruct (c4n_val lm) as [FC C]. set (c := lit (Num := NumF lm) (-0.0001)) in *.
  assert (CA : Rabs (val c) <= 1) by (apply Rabs_le_inv in C; apply Rabs_le; lra).
  destruct (prod3 c b t FC FS FT) as [FP P]; [lra|rewrite Rabs_pos_eq; lra|rewrite Rabs_pos_eq; lra|].
  assert (CP : val c <= 0) by (apply Rabs_le_inv in C; lra). set (y := (c * b * t)%float) in *.
  assert (Y : Rabs (val y + x) <= 4 * u * x + / 10 ^ 280).
  { apply (near_exponent (- val c) (val b * val t)); [|exact ST|reflexivity|].
    - replace (- val c - 1 / 10000) with (- (val c + 1 / 10000)) by ring. rewrite Rabs_Ropp. exact C.
    - replace (val y - val c * val b * val t) with (val y + val b * val t * - val c) in P by ring.
      replace (Rabs (val c * val b * val t)) with (val b * val t * - val c) in P; [exact P|]. replace (val c * val b * val t) with (- (val b * val t * - val c)) by ring. rewrite Rabs_Ropp, Rabs_pos_eq; [reflexivity|]. apply Rmult_le_pos; lra. }
  destruct (exp_near_x lm y x (/ 10 ^ 280) AC FP (conj X0 X) Y ltac:(lra)) as [FE E]. change (lm_exp lm y) with s in FE, E.
  destruct (x_exp x X0) as [XE [EP E1]]. set (e := exp (- x)) in *. split; [exact FE|]. split; [|split; [exact E|]].
  - apply Rabs_le_inv in E. split.
    + assert ((9 + 9 * x) * u < 1) by nra. nra.
    + assert (x * e <= 1 - e). { pose proof (exp_ineq1_le x) as Q. assert (EE : e * exp x = 1) by (unfold e; rewrite <- exp_plus, Rplus_opp_l; apply exp_0). nra. }
      assert (e + (9 + 9 * x) * u * e <= e + u * (9 * e + 9 * (1 - e))) by nra. lra.
  - eapply Rle_trans; [exact E|]. replace ((9 + 9 * x) * u * e) with (u * (9 * e + 9 * (x * e))) by ring. nra.
Qed.
(** the branch for different cross sections: what the formula gives, up to 50 u cs/|b - a| *)
Theorem C45_binary64 lm cs a b m : let t := number_density_cm2 (N := NumF lm) m in
  exp_accurate lm -> fin cs -> fin a -> fin b -> fin t ->
  0 <= val cs <= 10 ^ 9 -> 0 <= val a <= 10 ^ 6 -> 0 <= val b <= 10 ^ 6 -> 0 <= val t <= 6 ->
  5 <= Rabs (rnd (val b - val a)) ->
  let exact := val cs * (exp (- (val a * val t / 10000)) - exp (- (val b * val t / 10000))) / (val b - val a) in
  let r := production_rate (N := NumF lm) cs a b m in
  fin r /\ Rabs (val r - exact) <= 50 * u * (val cs / Rabs (val b - val a)) + / 10 ^ 280.
Proof.
  intros t AC FC FA FB FT CS A B T D exact r. pose proof u_pos as UP. assert (U1 : / 10 ^ 16 <= u <= 12 / 10 ^ 17) by (unfold u; lra). pose proof big_ge as BG. pose proof tiny_small as TS. pose proof tiny_pos as TP.
  destruct (sub_val b a FB FA) as [FD VD]; [apply Rabs_le; lra|]. pose proof (rnd_error (val b - val a)) as DE. rewrite <- VD in D, DE. set (d := (b - a)%float) in *. set (dr := val b - val a) in *.
  destruct (abs_val d FD) as [FAD VAD].
  assert (F5 : fin (lit (Num := NumF lm) 5.0) /\ val (lit (Num := NumF lm) 5.0) = 5). { cbn [lit NumF]. split; [apply fin_SF; vm_compute; exact I|]. rewrite val_SF. vm_compute Prim2SF. cbn. lra. }
  destruct F5 as [F5 V5].
  assert (EQ : r = (cs * (lm_exp lm (lit (Num := NumF lm) (-0.0001) * a * t) - lm_exp lm (lit (Num := NumF lm) (-0.0001) * b * t)) / d)%float).
  { unfold r, production_rate. fold t. cbv zeta. change (fltb (fabs (fsub b a)) (lit 5.0)) with (abs d <? lit (Num := NumF lm) 5.0)%float.
    destruct (ltb_val (abs d) (lit (Num := NumF lm) 5.0) FAD F5) as [L|_]; [exfalso; rewrite VAD, V5 in L; lra|]. reflexivity. }
  destruct (attenuation lm a t AC FA FT ltac:(lra) ltac:(lra)) as (F1 & B1 & _ & E1); [assert (val a * val t <= 10 ^ 6 * 6) by (apply Rmult_le_compat; lra); lra|].
  destruct (attenuation lm b t AC FB FT ltac:(lra) ltac:(lra)) as (F2 & B2 & _ & E2); [assert (val b * val t <= 10 ^ 6 * 6) by (apply Rmult_le_compat; lra); lra|].
  set (s1 := lm_exp lm (lit (Num := NumF lm) (-0.0001) * a * t)%float) in *. set (s2 := lm_exp lm (lit (Num := NumF lm) (-0.0001) * b * t)%float) in *.
  destruct (x_exp (val a * val t / 10000)) as [_ [P1 Q1]]; [assert (0 <= val a * val t) by (apply Rmult_le_pos; lra); lra|].
  destruct (x_exp (val b * val t / 10000)) as [_ [P2 Q2]]; [assert (0 <= val b * val t) by (apply Rmult_le_pos; lra); lra|].
  unfold exact. set (e1 := exp (- (val a * val t / 10000))) in *. set (e2 := exp (- (val b * val t / 10000))) in *.
  destruct (sub_val s1 s2 F1 F2) as [FG VG]; [apply Rabs_le; lra|]. pose proof (rnd_error (val s1 - val s2)) as GE. rewrite <- VG in GE. set (g := (s1 - s2)%float) in *.
  apply Rabs_le_inv in E1. apply Rabs_le_inv in E2.
  assert (GA : Rabs (val s1 - val s2) <= 1 + 10 * u) by (apply Rabs_le; lra). assert (G1 : Rabs (val g - (e1 - e2)) <= 38 * u).
  { replace (val g - (e1 - e2)) with ((val g - (val s1 - val s2)) + ((val s1 - e1) - (val s2 - e2))) by ring. eapply Rle_trans; [apply Rabs_triang|]. assert (Rabs (val s1 - e1 - (val s2 - e2)) <= 36 * u) by (apply Rabs_le; lra). assert (u * Rabs (val s1 - val s2) <= u * (3 / 2)) by (apply Rmult_le_compat_l; lra). lra. }
  assert (G2 : Rabs (val g) <= 1 + 38 * u). { replace (val g) with ((val g - (e1 - e2)) + (e1 - e2)) by ring. eapply Rle_trans; [apply Rabs_triang|]. assert (Rabs (e1 - e2) <= 1) by (apply Rabs_le; lra). lra. }
  assert (CG : Rabs (val cs * val g) <= val cs * (1 + 38 * u)). { rewrite Rabs_mult, (Rabs_pos_eq (val cs)) by lra. apply Rmult_le_compat_l; lra. }
  destruct (mul_val cs g FC FG) as [FM VM]; [eapply Rle_trans; [exact CG|]; apply Rle_trans with (10 ^ 9 * 2); [apply Rmult_le_compat|]; lra|]. pose proof (rnd_error (val cs * val g)) as ME. rewrite <- VM in ME. set (mm := (cs * g)%float) in *.
  assert (DR : 4 <= Rabs dr). { assert (Rabs (val d) <= Rabs dr + (u * Rabs dr + tiny)) by (replace (val d) with ((val d - dr) + dr) by ring; eapply Rle_trans; [apply Rabs_triang|]; lra). assert (u * Rabs dr <= / 10 * Rabs dr) by (apply Rmult_le_compat_r; [apply Rabs_pos|lra]). lra. }
  assert (D0 : dr <> 0) by (intros Z; rewrite Z, Rabs_R0 in DR; lra). assert (VD0 : val d <> 0) by (intros Z; rewrite Z, Rabs_R0 in D; lra).
  assert (M1 : Rabs (val mm - val cs * (e1 - e2)) <= val cs * (40 * u) + tiny).
  { replace (val mm - val cs * (e1 - e2)) with ((val mm - val cs * val g) + val cs * (val g - (e1 - e2))) by ring. eapply Rle_trans; [apply Rabs_triang|]. rewrite (Rabs_mult (val cs)), (Rabs_pos_eq (val cs)) by lra.
    assert (val cs * Rabs (val g - (e1 - e2)) <= val cs * (38 * u)) by (apply Rmult_le_compat_l; lra). assert (u * Rabs (val cs * val g) <= u * (val cs * (1 + 38 * u))) by (apply Rmult_le_compat_l; lra). assert (u * (val cs * (1 + 38 * u)) <= u * (val cs * 2)) by (apply Rmult_le_compat_l; [lra|]; apply Rmult_le_compat_l; lra). lra. }
  assert (MA : Rabs (val mm) <= val cs * (1 + 40 * u) + tiny). { replace (val mm) with ((val mm - val cs * (e1 - e2)) + val cs * (e1 - e2)) by ring. eapply Rle_trans; [apply Rabs_triang|]. rewrite (Rabs_mult (val cs)), (Rabs_pos_eq (val cs)) by lra. assert (val cs * Rabs (e1 - e2) <= val cs * 1) by (apply Rmult_le_compat_l; [lra|apply Rabs_le; lra]). lra. }
  (* the quotient by the rounded difference and by the exact one *)
  assert (IQ : Rabs (/ val d - / dr) <= 2 * u * / Rabs dr + tiny).
  { replace (/ val d - / dr) with ((dr - val d) * (/ val d * / dr)) by (field; split; assumption). rewrite Rabs_mult, Rabs_minus_sym, Rabs_mult, !Rabs_inv.
    assert (ID : / Rabs (val d) <= / 5) by (apply Rinv_le; lra). assert (IR : / Rabs dr <= / 4) by (apply Rinv_le; lra). assert (0 < / Rabs (val d)) by (apply Rinv_0_lt_compat; lra). assert (IP : 0 < / Rabs dr) by (apply Rinv_0_lt_compat; lra).
    assert (QQ : / Rabs (val d) * Rabs dr <= 3 / 2). { apply Rmult_le_reg_l with (Rabs (val d)); [lra|]. rewrite <- Rmult_assoc, Rinv_r, Rmult_1_l by lra. assert (Rabs dr <= Rabs (val d) + (u * Rabs dr + tiny)) by (replace dr with ((dr - val d) + val d) at 1 by ring; eapply Rle_trans; [apply Rabs_triang|]; rewrite Rabs_minus_sym; lra). assert (u * Rabs dr <= / 10 * Rabs dr) by (apply Rmult_le_compat_r; [apply Rabs_pos|lra]). lra. }
    apply Rle_trans with ((u * Rabs dr + tiny) * (/ Rabs (val d) * / Rabs dr)); [apply Rmult_le_compat_r; [apply Rmult_le_pos; lra|exact DE]|].
    replace ((u * Rabs dr + tiny) * (/ Rabs (val d) * / Rabs dr)) with (u * (/ Rabs (val d) * Rabs dr) * / Rabs dr + tiny * (/ Rabs (val d) * / Rabs dr)) by ring.
    assert (u * (/ Rabs (val d) * Rabs dr) * / Rabs dr <= u * (3 / 2) * / Rabs dr) by (apply Rmult_le_compat_r; [lra|]; apply Rmult_le_compat_l; lra). assert (/ Rabs (val d) * / Rabs dr <= / 5 * / 4) by (apply Rmult_le_compat; lra). assert (tiny * (/ Rabs (val d) * / Rabs dr) <= tiny * 1) by (apply Rmult_le_compat_l; lra). assert (u * (3 / 2) * / Rabs dr <= 2 * u * / Rabs dr) by (apply Rmult_le_compat_r; lra). lra. }
  assert (QE : Rabs (val mm / val d - val cs * (e1 - e2) / dr) <= 45 * u * (val cs / Rabs dr) + / 10 ^ 285).
  { replace (val mm / val d - val cs * (e1 - e2) / dr) with (val mm * (/ val d - / dr) + (val mm - val cs * (e1 - e2)) * / dr) by (unfold Rdiv; ring). eapply Rle_trans; [apply Rabs_triang|]. rewrite !Rabs_mult, (Rabs_inv dr).
    assert (IR : / Rabs dr <= / 4) by (apply Rinv_le; lra). assert (IP : 0 < / Rabs dr) by (apply Rinv_0_lt_compat; lra). unfold Rdiv. set (i := / Rabs dr) in *.
    assert (Z1 : Rabs (val mm) * Rabs (/ val d - / dr) <= (val cs * (1 + 40 * u) + tiny) * (2 * u * i + tiny)) by (apply Rmult_le_compat; auto using Rabs_pos).
    assert (Z2 : Rabs (val mm - val cs * (e1 - e2)) * i <= (val cs * (40 * u) + tiny) * i) by (apply Rmult_le_compat_r; lra).
    assert (C0 : 0 <= val cs) by lra. assert (Z3 : val cs * (1 + 40 * u) * (2 * u * i) <= val cs * 2 * (2 * u * i)) by (apply Rmult_le_compat_r; [apply Rmult_le_pos; lra|]; apply Rmult_le_compat_l; lra).
    assert (Z4 : val cs * (1 + 40 * u) * tiny <= 10 ^ 9 * 2 * / 10 ^ 300) by (apply Rmult_le_compat; try lra; [apply Rmult_le_pos; lra|apply Rmult_le_compat; lra]).
    assert (Z5 : tiny * (2 * u * i) <= / 10 ^ 300 * 1) by (apply Rmult_le_compat; try lra; [apply Rmult_le_pos; lra|]; assert (2 * u * i <= 1 * / 4) by (apply Rmult_le_compat; lra); lra).
    assert (Z6 : tiny * tiny <= / 10 ^ 300 * 1) by (apply Rmult_le_compat; lra). assert (Z7 : tiny * i <= / 10 ^ 300 * 1) by (apply Rmult_le_compat; lra).
    assert (Z8 : 0 <= u * (val cs * i)) by (apply Rmult_le_pos; [lra|]; apply Rmult_le_pos; lra).
    assert (Z9 : 10 ^ 9 * 2 * / 10 ^ 300 + 4 * (/ 10 ^ 300 * 1) <= / 10 ^ 285) by lra. lra. }
  assert (EX : Rabs (val cs * (e1 - e2) / dr) <= val cs / Rabs dr). { unfold Rdiv. rewrite !Rabs_mult, Rabs_inv, (Rabs_pos_eq (val cs)) by lra. apply Rmult_le_compat_r; [left; apply Rinv_0_lt_compat; lra|]. rewrite <- (Rmult_1_r (val cs)) at 2. apply Rmult_le_compat_l; [lra|]. apply Rabs_le. lra. }
  assert (CD : 0 <= val cs / Rabs dr <= 10 ^ 9). { assert (IR : / Rabs dr <= / 4) by (apply Rinv_le; lra). assert (IP : 0 < / Rabs dr) by (apply Rinv_0_lt_compat; lra). unfold Rdiv. split; [apply Rmult_le_pos; lra|]. apply Rle_trans with (10 ^ 9 * / 4); [apply Rmult_le_compat; lra|lra]. }
  assert (QA : Rabs (val mm / val d) <= 2 * (val cs / Rabs dr) + / 10 ^ 285). { replace (val mm / val d) with ((val mm / val d - val cs * (e1 - e2) / dr) + val cs * (e1 - e2) / dr) by ring. eapply Rle_trans; [apply Rabs_triang|]. assert (45 * u * (val cs / Rabs dr) <= 1 * (val cs / Rabs dr)) by (apply Rmult_le_compat_r; lra). lra. }
  destruct (div_val mm d FM VD0) as [FQ VQ]; [lra|]. change (cs * (s1 - s2) / d)%float with (mm / d)%float in EQ. rewrite EQ. split; [exact FQ|]. pose proof (rnd_error (val mm / val d)) as RE. rewrite <- VQ in RE.
  replace (val (mm / d) - val cs * (e1 - e2) / dr) with ((val (mm / d) - val mm / val d) + (val mm / val d - val cs * (e1 - e2) / dr)) by ring. eapply Rle_trans; [apply Rabs_triang|].
  set (k := val cs / Rabs dr) in *. assert (u * Rabs (val mm / val d) <= u * (2 * k + / 10 ^ 285)) by (apply Rmult_le_compat_l; lra). assert (u * / 10 ^ 285 <= 1 * / 10 ^ 285) by (apply Rmult_le_compat_r; lra). assert (0 <= u * k) by (apply Rmult_le_pos; lra).
  assert (2 * / 10 ^ 285 + / 10 ^ 300 <= / 10 ^ 280) by lra. lra.
Qed.
Print Assumptions C45_binary64.
(** the branch for nearly equal cross sections: a relative error of some units in the last place *)
Theorem C45_binary64_thin lm cs a b m : let t := number_density_cm2 (N := NumF lm) m in
  exp_accurate lm -> fin cs -> fin a -> fin b -> fin t ->
  0 <= val cs <= 10 ^ 9 -> 0 <= val a <= 10 ^ 6 -> 0 <= val b <= 10 ^ 6 -> 0 <= val t <= 6 ->
  Rabs (rnd (val b - val a)) < 5 ->
  let x := val b * val t / 10000 in let exact := val cs * val t / 10000 * exp (- x) in
  let r := production_rate (N := NumF lm) cs a b m in
  fin r /\ 0 <= val r /\ Rabs (val r - exact) <= (15 + 10 * x) * u * exact + / 10 ^ 270.
Proof.
  intros t AC FC FA FB FT CS A B T D x exact r. pose proof u_pos as UP. assert (U1 : / 10 ^ 16 <= u <= 12 / 10 ^ 17) by (unfold u; lra). pose proof big_ge as BG. pose proof tiny_small as TS. pose proof tiny_pos as TP.
  destruct (sub_val b a FB FA) as [FD VD]; [apply Rabs_le; lra|]. rewrite <- VD in D. set (d := (b - a)%float) in *. destruct (abs_val d FD) as [FAD VAD].
  assert (F5 : fin (lit (Num := NumF lm) 5.0) /\ val (lit (Num := NumF lm) 5.0) = 5). { cbn [lit NumF]. split; [apply fin_SF; vm_compute; exact I|]. rewrite val_SF. vm_compute Prim2SF. cbn. lra. }
  destruct F5 as [F5 V5].
  assert (EQ : r = (lit (Num := NumF lm) 0.0001 * cs * t * lm_exp lm (lit (Num := NumF lm) (-0.0001) * b * t))%float).
  { unfold r, production_rate. fold t. cbv zeta. change (fltb (fabs (fsub b a)) (lit 5.0)) with (abs d <? lit (Num := NumF lm) 5.0)%float.
    destruct (ltb_val (abs d) (lit (Num := NumF lm) 5.0) FAD F5) as [_|L]; [reflexivity|exfalso; rewrite VAD, V5 in L; lra]. }
  assert (X : 0 <= x <= 600). { unfold x. assert (0 <= val b * val t) by (apply Rmult_le_pos; lra). assert (val b * val t <= 10 ^ 6 * 6) by (apply Rmult_le_compat; lra). lra. }
  destruct (attenuation lm b t AC FB FT ltac:(lra) ltac:(lra) ltac:(fold x; lra)) as (F2 & B2 & E2 & _). fold x in E2. set (s := lm_exp lm (lit (Num := NumF lm) (-0.0001) * b * t)%float) in *.
  destruct (c4_val lm) as [F4 C4]. set (c := lit (Num := NumF lm) 0.0001) in *. apply Rabs_le_inv in C4.
  destruct (prod3 c cs t F4 FC FT) as [FP P]; [rewrite Rabs_pos_eq; lra|rewrite Rabs_pos_eq; lra|rewrite Rabs_pos_eq; lra|]. set (q := (c * cs * t)%float) in *.
  assert (CT : 0 <= val cs * val t <= 10 ^ 10). { split; [apply Rmult_le_pos; lra|]. apply Rle_trans with (10 ^ 9 * 6); [apply Rmult_le_compat; lra|lra]. }
  set (k := val cs * val t / 10000) in *. assert (K : 0 <= k <= 10 ^ 6) by (unfold k; lra).
  assert (CK : val c * val cs * val t = k * (val c * 10000)) by (unfold k; field). rewrite CK in P.
  assert (QK : Rabs (val q - k) <= 4 * u * k + / 10 ^ 280).
  { replace (val q - k) with ((val q - k * (val c * 10000)) + k * (val c * 10000 - 1)) by ring. eapply Rle_trans; [apply Rabs_triang|]. rewrite (Rabs_mult k), (Rabs_pos_eq k) by lra. rewrite Rabs_mult, (Rabs_pos_eq k), (Rabs_pos_eq (val c * 10000)) in P by lra.
    assert (k * Rabs (val c * 10000 - 1) <= k * u) by (apply Rmult_le_compat_l; [lra|]; apply Rabs_le; lra). assert (u * (k * (val c * 10000)) <= u * (k * (1 + / 10))) by (apply Rmult_le_compat_l; [lra|]; apply Rmult_le_compat_l; lra). assert (0 <= u * k) by (apply Rmult_le_pos; lra). lra. }
  assert (Q0 : 0 <= val q). { assert (0 <= val c * val cs) by (apply Rmult_le_pos; lra). destruct (mul_val c cs F4 FC) as [F1 V1]; [rewrite Rabs_pos_eq by assumption; apply Rle_trans with (1 * 10 ^ 9); [apply Rmult_le_compat; lra|lra]|].
    assert (0 <= val (c * cs)%float) by (rewrite V1; now apply rnd_ge_0). assert (B9 : val (c * cs)%float <= 10 ^ 10). { rewrite V1. pose proof (rnd_error (val c * val cs)) as RE. rewrite (Rabs_pos_eq (val c * val cs)) in RE by assumption. assert (val c * val cs <= 1 * 10 ^ 9) by (apply Rmult_le_compat; lra). assert (u * (val c * val cs) <= 1 * (1 * 10 ^ 9)) by (apply Rmult_le_compat; lra). apply Rabs_le_inv in RE. lra. }
    assert (0 <= val (c * cs)%float * val t) by (apply Rmult_le_pos; lra). destruct (mul_val (c * cs) t F1 FT) as [F3 V3]; [rewrite Rabs_pos_eq by assumption; apply Rle_trans with (10 ^ 10 * 6); [apply Rmult_le_compat; lra|lra]|]. unfold q. rewrite V3. now apply rnd_ge_0. }
  destruct (x_exp x (proj1 X)) as [XE [EP E1]]. unfold exact. set (e := exp (- x)) in *.
  assert (QB : val q <= 2 * 10 ^ 6). { apply Rabs_le_inv in QK. assert (4 * u * k <= / 10 * 10 ^ 6) by (apply Rmult_le_compat; lra). lra. }
  assert (QS : 0 <= val q * val s <= 4 * 10 ^ 6). { split; [apply Rmult_le_pos; lra|]. apply Rle_trans with (2 * 10 ^ 6 * 2); [apply Rmult_le_compat; lra|lra]. }
  destruct (mul_val q s FP F2) as [FR VR]; [rewrite Rabs_pos_eq by lra; lra|]. rewrite EQ. split; [exact FR|]. split; [rewrite VR; apply rnd_ge_0; lra|].
  pose proof (rnd_error (val q * val s)) as RE. rewrite <- VR, (Rabs_pos_eq (val q * val s)) in RE by lra.
  assert (W : Rabs (val q * val s - k * e) <= (131 / 10 + 95 / 10 * x) * u * (k * e) + / 10 ^ 275).
  { replace (val q * val s - k * e) with ((val q - k) * e + val q * (val s - e)) by ring. eapply Rle_trans; [apply Rabs_triang|]. rewrite !Rabs_mult, (Rabs_pos_eq e), (Rabs_pos_eq (val q)) by lra.
    assert (W1 : Rabs (val q - k) * e <= (4 * u * k + / 10 ^ 280) * e) by (apply Rmult_le_compat_r; lra). assert (W2 : val q * Rabs (val s - e) <= (k + (4 * u * k + / 10 ^ 280)) * ((9 + 9 * x) * u * e)). { apply Rmult_le_compat; auto using Rabs_pos. apply Rabs_le_inv in QK. lra. }
    assert (W3 : / 10 ^ 280 * e <= / 10 ^ 280 * 1) by (apply Rmult_le_compat_l; lra). assert (Y0 : 0 <= (9 + 9 * x) * u <= 1) by (split; [apply Rmult_le_pos; lra|]; apply Rle_trans with (6000 * (12 / 10 ^ 17)); [apply Rmult_le_compat; lra|lra]).
    assert (W4 : / 10 ^ 280 * ((9 + 9 * x) * u * e) <= / 10 ^ 280 * 1) by (apply Rmult_le_compat_l; [lra|]; apply Rle_trans with (1 * 1); [apply Rmult_le_compat; lra|lra]).
    assert (KE : 0 <= k * e) by (apply Rmult_le_pos; lra). assert (W5 : 4 * u * k * ((9 + 9 * x) * u * e) <= / 10 ^ 11 * (u * (k * e))). { replace (4 * u * k * ((9 + 9 * x) * u * e)) with (4 * ((9 + 9 * x) * u) * (u * (k * e))) by ring. apply Rmult_le_compat_r; [apply Rmult_le_pos; lra|]. assert ((9 + 9 * x) * u <= 6000 * (12 / 10 ^ 17)) by (apply Rmult_le_compat; lra). lra. }
    assert (0 <= u * (k * e)) by (apply Rmult_le_pos; lra). assert (0 <= x * (u * (k * e))) by (apply Rmult_le_pos; lra). assert (W6 : 2 * (/ 10 ^ 280 * 1) <= / 10 ^ 275) by lra. lra. }
  replace (val (q * s)%float - k * e) with ((val (q * s)%float - val q * val s) + (val q * val s - k * e)) by ring. eapply Rle_trans; [apply Rabs_triang|].
  assert (KE : 0 <= k * e) by (apply Rmult_le_pos; lra). assert (UK : 0 <= u * (k * e)) by (apply Rmult_le_pos; lra). assert (XK : 0 <= x * (u * (k * e))) by (apply Rmult_le_pos; lra).
  assert (V : u * (val q * val s) <= u * (k * e) + / 10 * (u * (k * e)) + u * / 10 ^ 275).
  { assert (val q * val s <= k * e + ((131 / 10 + 95 / 10 * x) * u * (k * e) + / 10 ^ 275)) by (apply Rabs_le_inv in W; lra). assert ((131 / 10 + 95 / 10 * x) * u * (k * e) <= / 10 * (k * e)). { apply Rmult_le_compat_r; [lra|]. apply Rle_trans with (6000 * (12 / 10 ^ 17)); [apply Rmult_le_compat; lra|lra]. }
    apply Rle_trans with (u * (k * e + / 10 * (k * e) + / 10 ^ 275)); [apply Rmult_le_compat_l; lra|lra]. }
  assert (u * / 10 ^ 275 <= 1 * / 10 ^ 275) by (apply Rmult_le_compat_r; lra). assert (2 * / 10 ^ 275 + / 10 ^ 300 <= / 10 ^ 270) by lra. lra.
Qed.
Print Assumptions C45_binary64_thin.

(** ** The difference of the two exponentials is lost for very thin targets: less than 10^-13 g/cm^2 of carbon, cross sections of
    1000 and 1010 mb, and the production rate is 0 *)
Definition foil (th : float) : Material float := Material_elem (N := NumF z_libm) 12%float 6 2%float th 0%float.
Theorem C45_binary64_refuted : exists lm cs a b m, exp_accurate lm /\ let t := number_density_cm2 (N := NumF lm) m in
  fin t /\ 5 <= Rabs (rnd (val b - val a)) /\
  val (production_rate (N := NumF lm) cs a b m) = 0 /\
  0 < val cs * (exp (- (val a * val t / 10000)) - exp (- (val b * val t / 10000))) / (val b - val a).
Proof.
  exists z_libm, 1%float, 1000%float, 1010%float, (foil 0x1p-44%float). split; [exact z_exp_accurate|].
  assert (V1 : val 1%float = 1) by (rewrite val_SF; vm_compute Prim2SF; cbn; lra). assert (VA : val 1000%float = 1000) by (rewrite val_SF; vm_compute Prim2SF; cbn; lra). assert (VB : val 1010%float = 1010) by (rewrite val_SF; vm_compute Prim2SF; cbn; lra).
  cbv zeta. set (t := number_density_cm2 _). assert (T : exists s m e, Prim2SF t = S754_finite false m e /\ s = t) by (vm_compute; do 3 eexists; split; reflexivity). destruct T as (s & m & e & T & _).
  assert (TP : 0 < val t). { rewrite val_SF, T. cbn [SFR]. apply Rmult_lt_0_compat; [apply (IZR_lt 0); lia|]. destruct (Z.leb_spec 0 e); [apply (IZR_lt 0); apply Z.pow_pos_nonneg; lia|apply Rinv_0_lt_compat; apply (IZR_lt 0); apply Z.pow_pos_nonneg; lia]. }
  split; [apply fin_SF; rewrite T; exact I|]. rewrite V1, VA, VB. replace (1010 - 1000) with 10 by ring.
  split. { assert (E : rnd 10 = 10). { replace 10 with (val 10%float); [apply rnd_val|]. rewrite val_SF. vm_compute Prim2SF. cbn. lra. } rewrite E, Rabs_pos_eq; lra. }
  split.
  - assert (Z : production_rate (N := NumF z_libm) 1%float 1000%float 1010%float (foil 0x1p-44%float) = 0%float) by (vm_compute; reflexivity). rewrite Z, val_SF. vm_compute Prim2SF. reflexivity.
  - clearbody t. assert (exp (- (1010 * val t / 10000)) < exp (- (1000 * val t / 10000))) by (apply exp_increasing; lra). lra.
Qed.
Print Assumptions C45_binary64_refuted.

(** ** Concrete cases: one interaction length, and about 1 microgram/cm^2 of carbon *)
Example C44_binary64_case : let s := nonreaction_rate_st (N := NumF z_libm) 1000%float 10%float in fin 1000%float /\ fin 10%float /\ val 1000%float * val 10%float / 10000 <= 600 /\ s = 0x1.78b56362cef38p-2%float.
Proof.
  cbv zeta. split; [apply fin_SF; vm_compute; exact I|]. split; [apply fin_SF; vm_compute; exact I|]. split; [|vm_compute; reflexivity].
  rewrite !val_SF. vm_compute Prim2SF. cbn. lra.
Qed.
Example C45_binary64_case : let t := number_density_cm2 (N := NumF z_libm) (foil 0x1p-20%float) in fin t /\ 0 <= val t <= 6 /\
  5 <= Rabs (rnd (val 1010%float - val 1000%float)) /\ Rabs (rnd (val 1004%float - val 1000%float)) < 5.
Proof.
  cbv zeta. set (t := number_density_cm2 _).
  assert (T : fin t /\ 0 <= val t <= 6). { split; [apply fin_SF; vm_compute; exact I|]. rewrite val_SF. vm_compute Prim2SF. cbn [SFR Z.leb Z.compare Z.opp]. match goal with |- 0 <= ?a * / ?b <= 6 => assert (0 < b) by (apply (IZR_lt 0); vm_compute; reflexivity); split; [apply Rmult_le_pos; [lra|left; now apply Rinv_0_lt_compat]|] end.
    match goal with |- ?a * / ?b <= 6 => apply Rmult_le_reg_r with b; [assumption|]; rewrite Rmult_assoc, Rinv_l, Rmult_1_r by lra; rewrite <- mult_IZR; apply IZR_le; vm_compute; discriminate end. }
  split; [apply T|]. split; [apply T|]. assert (VA : val 1000%float = 1000) by (rewrite val_SF; vm_compute Prim2SF; cbn; lra). assert (VB : val 1010%float = 1010) by (rewrite val_SF; vm_compute Prim2SF; cbn; lra). assert (VC : val 1004%float = 1004) by (rewrite val_SF; vm_compute Prim2SF; cbn; lra).
  rewrite VA, VB, VC. replace (1010 - 1000) with 10 by ring. replace (1004 - 1000) with 4 by ring.
  assert (E : rnd 10 = 10). { replace 10 with (val 10%float); [apply rnd_val|]. rewrite val_SF. vm_compute Prim2SF. cbn. lra. } assert (E4 : rnd 4 = 4). { replace 4 with (val 4%float); [apply rnd_val|]. rewrite val_SF. vm_compute Prim2SF. cbn. lra. }
  rewrite E, E4, !Rabs_pos_eq by lra. lra.
Qed.
