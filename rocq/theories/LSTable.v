(** * The Lindhard-Sorensen tables at high energies, entry by entry

    Numbers are integers in units of 1/SC (LnBounds.v). *)
From Coq Require Import ZArith QArith Reals Qreals List Bool Lra Lia.
From Verif Require Import Num NumR Structures DataElements DataLSa DataLSahi EnergyTable Calculations SpecData DataProofs GridProofs InterpProofs
  BoundsProofs StragTables PropGrid PropStrag BetheProofs Lindhard TrigR PropLindhard LnBounds.
Import ListNotations.
Local Open Scope Z_scope.

(** energies of the grid points 161 .. 199 of the tables, in units of 1 keV/u, rounded down *)
Definition node_keV : list Z :=
  [460592204; 499450511; 541587137; 587278661; 636824994; 690551352; 748810385; 811984499;
   880488358; 954771611; 1035321843; 1122667773; 1217382727; 1320088400; 1431458937; 1552225357;
   1683180353; 1825183494; 1979166867; 2146141197; 2327202478; 2523539170; 2736439997; 2967302408;
   3217641750; 3489101213; 3783462617; 4102658105; 4448782831; 4824108704; 5231099308; 5672426068;
   6150985788; 6669919663; 7232633896; 7842822061; 8504489341; 9221978823; 9999999999].

Definition x_num (i : Z) : Z := 230258509299404568401799145468 * 7 * i.
Definition x_den : Z := 10 ^ 29 * 199.
(** the energy of point i lies between q and q + 2 keV *)
Definition node_ok (iq : Z * Z) : bool :=
  let (i, q) := iq in
  match ln_int q 1000, ln_int (q + 2) 1000 with
  | Some (_, h), Some (l, _) => (h * x_den <=? x_num i * SC) && (x_num i * SC <=? l * x_den)
  | _, _ => false
  end.
Definition nodes : list (Z * Z) := combine (map Z.of_nat (seq 161 39)) node_keV.
Lemma nodes_checked : forallb node_ok nodes = true.
Proof. vm_compute. reflexivity. Qed.

(** lower and upper bounds for the part of the correction that depends on the energy, 3/10 - ln (T/m) - psi, and an
    upper bound of ln gamma *)
Definition amu_ln : Z * Z := match ln_int 9314940954 10000000 with Some b => b | None => (0, 0) end.
Definition energy_part (iq : Z * Z) : Z * Z * Z :=
  let (i, q) := iq in
  let xl := x_num i * SC / x_den in let xh := xl + 1 in
  let (ml, mh) := amu_ln in
  let vl := 9314940954 * SC / (10000 * (q + 2)) in
  let vh := 9314940954 * SC / (10000 * q) + 1 in
  let pl := vl - (vh * vh / (2 * SC) + 1) - (vh * vh * vh / (SC * SC) + 1) in
  let ph := vh - vl * vl / (2 * SC) + (2 * (vh * vh * vh) / (SC * SC) + 1) in
  (3 * SC / 10 - xh + ml - ph, 3 * SC / 10 + 1 - xl + mh - pl, xh - ml + vh).
(** bounds for the logarithm of the radius of a nucleus with A = num/den *)
Definition compton_ln : Z * Z := match ln_int (10 ^ 14) 305573356675 with Some b => b | None => (0, 0) end.
Definition mass_part (num den : Z) : option (Z * Z) :=
  match ln_int num den with
  | Some (l, h) => let (kl, kh) := compton_ln in Some (l / 3 - kh, h / 3 + 1 - kl)
  | None => None
  end.
Definition ten_ln : Z * Z := match ln_int 10 1 with Some b => b | None => (0, 0) end.
(** the energy is below the limit of the closed form *)
Definition below (g : Z * Z * Z) (m : Z * Z) : bool := snd g + snd m <? fst ten_ln.
Definition close (d : dec) (g : Z * Z * Z) (m : Z * Z) : bool :=
  below g m || let '(gl, gh, lg) := g in let (hl, hh) := m in
  (fine d && (sc d * SC <=? 6000000 * SC + 10 ^ 12 * (gl - hh)) && (10 ^ 12 * (gh - hl) <=? 6000000 * SC + sc d * SC)).
Definition weight_dec (z : nat) : dec := nth z element_atomic_weights 0%dec.
(** row z (from 1) of the two tables *)
Definition row_ok (gs : list (Z * Z * Z)) (z : nat) : bool :=
  let w := weight_dec z in
  (-20 <=? dec_exp w) && (dec_exp w <=? 0) && (0 <? dec_mant w) &&
  match mass_part (dec_mant w) (10 ^ (- dec_exp w)), mass_part (21 * dec_mant w) (20 * 10 ^ (- dec_exp w)) with
  | Some ma, Some mh =>
      below (hd (0, 0, 0) gs) ma && below (hd (0, 0, 0) gs) mh &&
      forallb (fun de : dec * (Z * Z * Z) => close (fst de) (snd de) ma) (combine (skipn 161 (nth (z - 1) ls_coefficients_a [])) gs)
      && forallb (fun de : dec * (Z * Z * Z) => close (fst de) (snd de) mh) (combine (skipn 161 (nth (z - 1) ls_coefficients_ahi [])) gs)
  | _, _ => false
  end.
Lemma table_checked : (let gs := map energy_part nodes in forallb (row_ok gs) (seq 1 108)) = true.
Proof. vm_compute. reflexivity. Qed.
Local Open Scope R_scope.

(** ** The closed form *)
Notation amu := (9314940954 / 10000000).
Notation compton := (305573356675 / 10 ^ 14).
Definition closed (A T : R) : R := - ln (momentum_radius A T) - 1 / 5 + beta2 T / 2.
Definition psi (v : R) : R := ln (1 + 2 * v) / 2 + (v / (1 + v)) * (v / (1 + v)) / 2.
Definition log_radius (A : R) : R := ln A / 3 + ln compton.
Lemma psi_bounds v : 0 <= v -> v - v * v / 2 - v * v * v <= psi v <= v - v * v / 2 + 2 * (v * v * v).
Proof.
  intros V. unfold psi. destruct (ln1p_bounds (2 * v) ltac:(lra)) as [A B]. replace ((2 * v) ^ 2) with (4 * (v * v)) in * by ring. replace ((2 * v) ^ 3) with (8 * (v * v * v)) in * by ring.
  assert (Q : 0 <= v / (1 + v) <= v /\ v - v * v <= v / (1 + v)).
  { assert (E : v / (1 + v) * (1 + v) = v) by (field; lra). assert (0 <= v / (1 + v)) by (apply Rmult_le_pos; [lra|left; apply Rinv_0_lt_compat; lra]). repeat split; nra. }
  set (y := v / (1 + v)) in *. clearbody y. assert (0 <= v * v) by nra. assert (0 <= v * v * v) by (apply Rmult_le_pos; lra).
  assert (y * y <= v * v) by (apply Rmult_le_compat; lra).
  assert (v * v - 2 * (v * v * v) <= y * y).
  { destruct (Rle_lt_dec (v - v * v) 0) as [N|N]; [|assert ((v - v * v) * (v - v * v) <= y * y) by (apply Rmult_le_compat; lra); nra].
    assert (v = 0 \/ 1 <= v) as [-> |] by (destruct (Req_dec v 0); [now left|right; nra]); nra. }
  lra.
Qed.
Lemma closed_eq A T : 0 < A -> 0 < T -> closed A T = 3 / 10 - ln T + ln amu - psi (amu / T) - log_radius A.
Proof.
  intros HA HT. unfold closed, psi, log_radius. set (v := amu / T). assert (V : 0 < v) by (unfold v; apply Rmult_lt_0_compat; [lra|now apply Rinv_0_lt_compat]).
  assert (G : lorentz T = (1 + v) / v) by (unfold lorentz, v; field; lra).
  assert (LV : ln v = ln amu - ln T) by (unfold v, Rdiv; rewrite (ln_mult (9314940954 * / 10000000) (/ T)), (ln_Rinv T); [lra|exact HT|lra|now apply Rinv_0_lt_compat]).
  assert (B : beta2 T = (1 + 2 * v) / ((1 + v) * (1 + v))) by (unfold beta2; rewrite G; field; lra).
  assert (B0 : 0 < beta2 T) by (rewrite B; apply Rmult_lt_0_compat; [lra|apply Rinv_0_lt_compat; nra]).
  assert (G0 : 0 < lorentz T) by (rewrite G; apply Rmult_lt_0_compat; [lra|now apply Rinv_0_lt_compat]).
  assert (R0 : 0 < Rpower A (1 / 3)) by apply exp_pos. assert (C0 : 0 < compton) by lra.
  assert (S0 : 0 < sqrt (beta2 T)) by (now apply sqrt_lt_R0).
  unfold momentum_radius, radius. rewrite (ln_mult (sqrt (beta2 T) * lorentz T) (Rpower A (1 / 3) * compton)) by (apply Rmult_lt_0_compat; assumption).
  rewrite (ln_mult (Rpower A (1 / 3)) compton) by assumption. unfold Rpower at 1. rewrite ln_exp.
  assert (LS : ln (sqrt (beta2 T) * lorentz T) = ln (1 + 2 * v) / 2 - ln v).
  { assert (E2 : (sqrt (beta2 T) * lorentz T) * (sqrt (beta2 T) * lorentz T) = (1 + 2 * v) * (/ v * / v)).
    { replace ((sqrt (beta2 T) * lorentz T) * (sqrt (beta2 T) * lorentz T)) with ((sqrt (beta2 T) * sqrt (beta2 T)) * (lorentz T * lorentz T)) by ring.
      rewrite sqrt_sqrt by lra. rewrite B, G. field. lra. }
    apply (f_equal ln) in E2. assert (I0 : 0 < / v) by (now apply Rinv_0_lt_compat).
    rewrite (ln_mult (sqrt (beta2 T) * lorentz T) (sqrt (beta2 T) * lorentz T)) in E2 by (apply Rmult_lt_0_compat; assumption).
    rewrite (ln_mult (1 + 2 * v) (/ v * / v)), (ln_mult (/ v) (/ v)), ln_Rinv in E2; try assumption; try lra. apply Rmult_lt_0_compat; assumption. }
  rewrite LS, B, LV. field. lra.
Qed.
Lemma ln_lorentz T : 0 < T -> ln (lorentz T) <= ln T - ln amu + amu / T.
Proof.
  intros HT. set (v := amu / T). assert (V : 0 < v) by (unfold v; apply Rmult_lt_0_compat; [lra|now apply Rinv_0_lt_compat]).
  assert (G : lorentz T = (1 + v) * / v) by (unfold lorentz, v; field; lra).
  assert (LV : ln v = ln amu - ln T) by (unfold v, Rdiv; rewrite (ln_mult (9314940954 * / 10000000) (/ T)), (ln_Rinv T); [lra|exact HT|lra|now apply Rinv_0_lt_compat]).
  rewrite G, ln_mult, ln_Rinv, LV by (try lra; now apply Rinv_0_lt_compat).
  assert (E : ln (1 + v) <= v).
  { rewrite <- (ln_exp v) at 2. left. apply ln_increasing; [lra|]. apply exp_ineq1. lra. }
  lra.
Qed.

(** ** The checks imply the inequalities *)
Lemma SC_big : 1 < IZR SC. Proof. apply IZR_lt. reflexivity. Qed.
Lemma node_ln i : ln (G200 (IZR i)) = IZR (x_num i) / IZR x_den.
Proof.
  unfold gval, gstep. rewrite ln_exp. replace (INR 200) with 200 by (rewrite INR_IZR_INZ; reflexivity). unfold x_num. rewrite !mult_IZR.
  replace (LN10_ (F:=R)) with (IZR 230258509299404568401799145468 / 10 ^ 29) by (unfold LN10_; numR; dec_norm; lra).
  replace (IZR x_den) with (10 ^ 29 * 199) by (unfold x_den; rewrite mult_IZR; rewrite IZR_pow10 by lia; reflexivity). field.
Qed.
Lemma frac_le a b c d : (0 < b)%Z -> (a * d <= c * b)%Z -> 0 < IZR d -> IZR a / IZR b <= IZR c / IZR d.
Proof.
  intros B H D. apply IZR_lt in B. apply IZR_le in H. rewrite !mult_IZR in H. apply Rmult_le_reg_r with (IZR b * IZR d); [now apply Rmult_lt_0_compat|].
  replace (IZR a / IZR b * (IZR b * IZR d)) with (IZR a * IZR d) by (field; lra). replace (IZR c / IZR d * (IZR b * IZR d)) with (IZR c * IZR b) by (field; lra). exact H.
Qed.
Lemma node_bounds i q : In (i, q) nodes -> 0 < IZR q /\ IZR q / 1000 <= G200 (IZR i) <= IZR (q + 2) / 1000.
Proof.
  intros I. pose proof nodes_checked as C. rewrite forallb_forall in C. specialize (C _ I). unfold node_ok in C.
  destruct (ln_int q 1000) as [[l h]|] eqn:E1; [|discriminate]. destruct (ln_int (q + 2) 1000) as [[l2 h2]|] eqn:E2; [|discriminate].
  rewrite andb_true_iff, !Z.leb_le in C. destruct C as [C1 C2]. apply ln_int_ok in E1, E2. destruct E1 as (_ & Q1 & _ & H1). destruct E2 as (_ & Q2 & H2 & _).
  pose proof (node_ln i) as N. pose proof (gval_pos 200 0 7 (IZR i)) as P. pose proof SC_pos as S0.
  assert (XD : (0 < x_den)%Z) by reflexivity. assert (XDR : 0 < IZR x_den) by (now apply IZR_lt). assert (SCz : (0 < SC)%Z) by reflexivity.
  apply IZR_le in C1, C2. rewrite !mult_IZR in C1, C2.
  assert (F1 : IZR h <= ln (G200 (IZR i)) * IZR SC).
  { rewrite N. apply Rmult_le_reg_r with (IZR x_den); [exact XDR|]. replace (IZR (x_num i) / IZR x_den * IZR SC * IZR x_den) with (IZR (x_num i) * IZR SC) by (field; lra). exact C1. }
  assert (F2 : ln (G200 (IZR i)) * IZR SC <= IZR l2).
  { rewrite N. apply Rmult_le_reg_r with (IZR x_den); [exact XDR|]. replace (IZR (x_num i) / IZR x_den * IZR SC * IZR x_den) with (IZR (x_num i) * IZR SC) by (field; lra). exact C2. }
  split; [lra|]. split.
  - apply Rnot_lt_le. intros L. apply ln_increasing in L; [|exact P]. apply (Rmult_lt_compat_r (IZR SC)) in L; lra.
  - apply Rnot_lt_le. intros L. apply ln_increasing in L; [|lra]. apply (Rmult_lt_compat_r (IZR SC)) in L; lra.
Qed.
Lemma amu_ln_ok : IZR (fst amu_ln) <= ln amu * IZR SC <= IZR (snd amu_ln).
Proof.
  unfold amu_ln. destruct (ln_int 9314940954 10000000) as [[l h]|] eqn:E; [|vm_compute in E; discriminate]. apply ln_int_ok in E. exact (proj2 (proj2 E)).
Qed.
Lemma compton_ln_ok : IZR (fst compton_ln) <= - ln compton * IZR SC <= IZR (snd compton_ln).
Proof.
  unfold compton_ln. destruct (ln_int (10 ^ 14) 305573356675) as [[l h]|] eqn:E; [|vm_compute in E; discriminate]. apply ln_int_ok in E. destruct E as (_ & _ & E).
  rewrite IZR_pow10 in E by lia. change (Z.to_nat 14) with 14%nat in E. replace (- ln compton) with (ln (10 ^ 14 / 305573356675)); [exact E|].
  rewrite <- ln_Rinv by lra. f_equal. field.
Qed.
Lemma ten_ln_ok : IZR (fst ten_ln) <= ln 10 * IZR SC.
Proof.
  unfold ten_ln. destruct (ln_int 10 1) as [[l h]|] eqn:E; [|vm_compute in E; discriminate]. apply ln_int_ok in E. replace 10 with (10 / 1) at 1 by field. exact (proj1 (proj2 (proj2 E))).
Qed.

Definition energy_term (T : R) : R := 3 / 10 - ln T + ln amu - psi (amu / T).
Lemma energy_part_ok i q : In (i, q) nodes -> let '(gl, gh, lg) := energy_part (i, q) in
  IZR gl <= energy_term (G200 (IZR i)) * IZR SC <= IZR gh /\ ln (lorentz (G200 (IZR i))) * IZR SC <= IZR lg.
Proof.
  intros I. destruct (node_bounds i q I) as (Q0 & QL & QH). assert (Qz : (0 < q)%Z) by (now apply lt_IZR).
  pose proof amu_ln_ok as M. unfold energy_part. destruct amu_ln as [ml mh]. cbn [fst snd] in M.
  set (xl := (x_num i * SC / x_den)%Z). set (vl := (9314940954 * SC / (10000 * (q + 2)))%Z). set (vh := (9314940954 * SC / (10000 * q) + 1)%Z).
  cbv beta iota zeta. pose proof SC_pos as S0. assert (SCz : (0 < SC)%Z) by reflexivity.
  set (T := G200 (IZR i)) in *. assert (T0 : 0 < T) by (apply gval_pos). pose proof (node_ln i) as N. fold T in N.
  pose proof (ln_lorentz T T0) as LL. unfold energy_term. set (v := amu / T) in *.
  assert (V0 : 0 < v) by (unfold v; apply Rmult_lt_0_compat; [lra|now apply Rinv_0_lt_compat]).
  assert (XL : IZR xl <= ln T * IZR SC <= IZR xl + 1).
  { destruct (div_le (x_num i * SC) x_den eq_refl) as [D1 D2]. fold xl in D1, D2. rewrite N. rewrite mult_IZR in D1, D2. assert (XDR : 0 < IZR x_den) by (now apply IZR_lt).
    replace (IZR (x_num i) / IZR x_den * IZR SC) with (IZR (x_num i) * IZR SC / IZR x_den) by (field; lra). lra. }
  assert (VL : IZR vl <= v * IZR SC).
  { destruct (div_le (9314940954 * SC) (10000 * (q + 2)) ltac:(lia)) as [D1 _]. fold vl in D1. eapply Rle_trans; [exact D1|]. rewrite !mult_IZR, plus_IZR in *.
    replace (9314940954 * IZR SC / (10000 * (IZR q + 2))) with (amu / ((IZR q + 2) / 1000) * IZR SC) by (field; lra). apply Rmult_le_compat_r; [lra|].
    unfold v. apply Rmult_le_compat_l; [lra|]. apply Rinv_le_contravar; [exact T0|exact QH]. }
  assert (VH : v * IZR SC <= IZR vh).
  { destruct (div_le (9314940954 * SC) (10000 * q) ltac:(lia)) as [_ D1]. unfold vh. rewrite plus_IZR. left. eapply Rle_lt_trans; [|exact D1]. rewrite !mult_IZR in *.
    replace (9314940954 * IZR SC / (10000 * IZR q)) with (amu / (IZR q / 1000) * IZR SC) by (field; lra). apply Rmult_le_compat_r; [lra|].
    unfold v. apply Rmult_le_compat_l; [lra|]. apply Rinv_le_contravar; [lra|exact QL]. }
  assert (VLz : (0 <= vl)%Z) by (apply Z.div_pos; [apply Z.mul_nonneg_nonneg; lia|lia]). apply IZR_le in VLz.
  destruct (psi_bounds v ltac:(lra)) as [P1 P2]. set (s := IZR SC) in *. set (w := v * s) in *.
  assert (W0 : 0 < w) by (unfold w; now apply Rmult_lt_0_compat).
  assert (E2 : v * v * s = w * w / s) by (unfold w; field; lra). assert (E3 : v * v * v * s = w * w * w / (s * s)) by (unfold w; field; lra).
  assert (IS : 0 < / s) by (now apply Rinv_0_lt_compat). assert (ISS : 0 < / (s * s)) by (apply Rinv_0_lt_compat; now apply Rmult_lt_0_compat).
  assert (D2h : w * w / s / 2 <= IZR (vh * vh / (2 * SC)) + 1).
  { destruct (div_le (vh * vh) (2 * SC) ltac:(lia)) as [_ D]. left. eapply Rle_lt_trans; [|exact D]. rewrite !mult_IZR. fold s. replace (w * w / s / 2) with (w * w * (/ s / 2)) by (field; lra).
    replace (IZR vh * IZR vh / (2 * s)) with (IZR vh * IZR vh * (/ s / 2)) by (field; lra). apply Rmult_le_compat_r; [lra|]. apply Rmult_le_compat; lra. }
  assert (D2l : IZR (vl * vl / (2 * SC)) <= w * w / s / 2).
  { destruct (div_le (vl * vl) (2 * SC) ltac:(lia)) as [D _]. eapply Rle_trans; [exact D|]. rewrite !mult_IZR. fold s. replace (w * w / s / 2) with (w * w * (/ s / 2)) by (field; lra).
    replace (IZR vl * IZR vl / (2 * s)) with (IZR vl * IZR vl * (/ s / 2)) by (field; lra). apply Rmult_le_compat_r; [lra|]. apply Rmult_le_compat; lra. }
  assert (CB : w * w * w <= IZR vh * IZR vh * IZR vh).
  { apply Rmult_le_compat; [apply Rmult_le_pos; lra|lra| |lra]. apply Rmult_le_compat; lra. }
  assert (D3a : w * w * w / (s * s) <= IZR (vh * vh * vh / (SC * SC)) + 1).
  { destruct (div_le (vh * vh * vh) (SC * SC) ltac:(lia)) as [_ D]. left. eapply Rle_lt_trans; [|exact D]. rewrite !mult_IZR. fold s. apply Rmult_le_compat_r; [lra|]. exact CB. }
  assert (D3b : 2 * (w * w * w / (s * s)) <= IZR (2 * (vh * vh * vh) / (SC * SC)) + 1).
  { destruct (div_le (2 * (vh * vh * vh)) (SC * SC) ltac:(lia)) as [_ D]. left. eapply Rle_lt_trans; [|exact D]. rewrite !mult_IZR. fold s.
    replace (2 * (w * w * w / (s * s))) with (2 * (w * w * w) / (s * s)) by (field; lra). apply Rmult_le_compat_r; [lra|]. lra. }
  assert (H3 : IZR (3 * SC / 10) <= 3 / 10 * s <= IZR (3 * SC / 10) + 1).
  { destruct (div_le (3 * SC) 10 eq_refl) as [D1 D2]. rewrite mult_IZR in D1, D2. fold s in D1, D2. lra. }
  apply (Rmult_le_compat_r s) in P1; [|lra]. apply (Rmult_le_compat_r s) in P2; [|lra].
  rewrite !Rmult_minus_distr_r, ?Rmult_plus_distr_r in P1. rewrite ?Rmult_plus_distr_r, ?Rmult_minus_distr_r in P2.
  replace (v * v / 2 * s) with (w * w / s / 2) in P1, P2 by (rewrite <- E2; field). rewrite E3 in P1. rewrite (Rmult_assoc 2), E3 in P2. fold w in P1, P2.
  rewrite !Rmult_minus_distr_r, Rmult_plus_distr_r, Rmult_minus_distr_r. rewrite !minus_IZR, !plus_IZR, !minus_IZR, !plus_IZR.
  split; [split; lra|]. apply Rle_trans with ((ln T - ln amu + v) * s); [apply Rmult_le_compat_r; lra|]. rewrite Rmult_plus_distr_r, Rmult_minus_distr_r. fold w. lra.
Qed.
Lemma mass_part_ok num den l h : mass_part num den = Some (l, h) -> IZR l <= log_radius (IZR num / IZR den) * IZR SC <= IZR h /\ 0 < IZR num / IZR den.
Proof.
  unfold mass_part. destruct (ln_int num den) as [[a b]|] eqn:E; [|discriminate]. pose proof compton_ln_ok as K. destruct compton_ln as [kl kh]. cbn [fst snd] in K.
  intros H. injection H as <- <-. apply ln_int_ok in E. destruct E as (E0 & E1 & E2 & E3). destruct (div_le a 3 eq_refl) as [D1 _]. destruct (div_le b 3 eq_refl) as [_ D2].
  unfold log_radius. rewrite !minus_IZR, plus_IZR. rewrite Rmult_plus_distr_r. split; [split; lra|]. apply Rmult_lt_0_compat; [lra|now apply Rinv_0_lt_compat].
Qed.
Lemma below_ok i q m A : In (i, q) nodes -> below (energy_part (i, q)) m = true -> 0 < A -> log_radius A * IZR SC <= IZR (snd m) ->
  lorentz (G200 (IZR i)) < 10 / radius A.
Proof.
  intros I C A0 M. apply Rnot_le_lt. intros R. pose proof (energy_part_ok i q I) as GL. destruct (energy_part (i, q)) as [[gl gh] lg]. destruct GL as [G L]. destruct m as [hl hh]. cbn [fst snd] in M.
  pose proof SC_pos as S0. unfold below in C. cbn [fst snd] in C. apply Z.ltb_lt, IZR_lt in C. rewrite plus_IZR in C. pose proof ten_ln_ok as T.
  assert (R0 : 0 < radius A) by (unfold radius; apply Rmult_lt_0_compat; [apply exp_pos|lra]).
  assert (P : 10 <= lorentz (G200 (IZR i)) * radius A).
  { apply (Rmult_le_compat_r (radius A)) in R; [|lra]. unfold Rdiv in R. rewrite Rmult_assoc, Rinv_l, Rmult_1_r in R by lra. exact R. }
  assert (G0 : 0 < lorentz (G200 (IZR i))) by nra.
  assert (P' : ln 10 <= ln (lorentz (G200 (IZR i))) + log_radius A).
  { assert (LR : ln (radius A) = log_radius A) by (unfold radius, log_radius, Rpower; rewrite ln_mult, ln_exp by (apply exp_pos || lra); lra).
    rewrite <- LR, <- ln_mult by assumption. destruct P as [P|P]; [left; apply ln_increasing; lra|rewrite P; lra]. }
  apply (Rmult_le_compat_r (IZR SC)) in P'; lra.
Qed.
Lemma close_ok d i q m A : In (i, q) nodes -> close d (energy_part (i, q)) m = true -> 0 < A ->
  IZR (fst m) <= log_radius A * IZR SC <= IZR (snd m) ->
  10 / radius A <= lorentz (G200 (IZR i)) -> Rabs (Rlit d - closed A (G200 (IZR i))) <= 6 / 1000000.
Proof.
  intros I C A0 M R. unfold close in C. rewrite orb_true_iff in C. destruct C as [C|C].
  - apply (below_ok i q m A I) in C; [lra|exact A0|apply M].
  - pose proof (energy_part_ok i q I) as GL. destruct (energy_part (i, q)) as [[gl gh] lg]. destruct GL as [G _]. destruct m as [hl hh]. cbn [fst snd] in M.
    pose proof SC_pos as S0. rewrite !andb_true_iff, !Z.leb_le in C. destruct C as ((F & C1) & C2). apply IZR_le in C1, C2. rewrite !mult_IZR, !plus_IZR, !mult_IZR, !minus_IZR, (sc_R d F) in C1, C2.
    rewrite closed_eq by (try assumption; apply gval_pos). fold (energy_term (G200 (IZR i))). replace (IZR (10 ^ 12)) with (10 ^ 12) in C1, C2 by (rewrite IZR_pow10 by lia; reflexivity).
    set (e := energy_term _) in *. set (r := log_radius A) in *. set (x := Rlit d) in *. clearbody e r x.
    assert (Q1 : (x - (e - r)) * IZR SC <= 6 / 1000000 * IZR SC) by lra. assert (Q2 : (e - r - x) * IZR SC <= 6 / 1000000 * IZR SC) by lra.
    apply Rmult_le_reg_r in Q1; [|exact S0]. apply Rmult_le_reg_r in Q2; [|exact S0]. apply Rabs_le. lra.
Qed.

(** ** The rows *)
Lemma lorentz_mono a b : a <= b -> lorentz a <= lorentz b.
Proof. intros H. unfold lorentz. lra. Qed.
Lemma nodes_nth k : (k < 39)%nat -> exists q, In (Z.of_nat (161 + k), q) nodes /\ nth k (map energy_part nodes) (0, 0, 0)%Z = energy_part (Z.of_nat (161 + k), q).
Proof.
  intros K. exists (nth k node_keV 0%Z). assert (L : length node_keV = 39%nat) by reflexivity.
  assert (E : nth k nodes (0, 0)%Z = (Z.of_nat (161 + k), nth k node_keV 0%Z)).
  { unfold nodes. rewrite combine_nth by (rewrite map_length, seq_length, L; reflexivity). f_equal.
    rewrite (nth_indep _ _ (Z.of_nat 0)) by (rewrite map_length, seq_length; exact K). rewrite map_nth, seq_nth by exact K. reflexivity. }
  assert (LN : length nodes = 39%nat) by (unfold nodes; rewrite combine_length, map_length, seq_length, L; reflexivity).
  split; [rewrite <- E; apply nth_In; rewrite LN; exact K|].
  rewrite (nth_indep _ _ (energy_part (0, 0)%Z)) by (rewrite map_length, LN; exact K). rewrite map_nth, E. reflexivity.
Qed.
Lemma combine_all (P : dec * (Z * Z * Z) -> bool) (row : list dec) gs i d g : length row = 200%nat -> length gs = 39%nat -> (161 <= i < 200)%nat ->
  forallb P (combine (skipn 161 row) gs) = true -> P (nth i row d, nth (i - 161) gs g) = true.
Proof.
  intros L1 L2 I H. rewrite forallb_forall in H. apply H. assert (LS : length (skipn 161 row) = 39%nat) by (rewrite skipn_length, L1; reflexivity).
  replace (nth i row d) with (nth (i - 161) (skipn 161 row) d).
  - rewrite <- combine_nth by (now rewrite LS). apply nth_In. rewrite combine_length, LS, L2. cbn. lia.
  - rewrite <- (firstn_skipn 161 row) at 2. rewrite app_nth2; rewrite firstn_length, L1; cbn [Nat.min]; [|lia]. reflexivity.
Qed.

Lemma Rlit_frac d : (dec_exp d <= 0)%Z -> Rlit d = IZR (dec_mant d) / IZR (10 ^ (- dec_exp d)).
Proof.
  destruct d as [m e]. cbn [dec_mant dec_exp]. intros H. unfold Rlit. destruct e as [|p|p]; [change (10 ^ (- 0))%Z with 1%Z; change (10 ^ 0)%Z with 1%Z; rewrite mult_IZR; field|lia|reflexivity].
Qed.
Lemma entry_ok z i : (1 <= z <= 108)%nat -> (i < 200)%nat -> let w := Rlit (weight_dec z) in 0 < w /\
  (10 / radius w <= lorentz (G200 (IZR (Z.of_nat i))) -> Rabs (Rlit (la (z - 1) i) - closed w (G200 (IZR (Z.of_nat i)))) <= 6 / 1000000) /\
  (10 / radius (21 / 20 * w) <= lorentz (G200 (IZR (Z.of_nat i))) -> Rabs (Rlit (lh (z - 1) i) - closed (21 / 20 * w) (G200 (IZR (Z.of_nat i)))) <= 6 / 1000000).
Proof.
  intros Z I. cbv zeta. pose proof table_checked as C. cbv zeta in C. rewrite forallb_forall in C. specialize (C z ltac:(apply in_seq; lia)).
  assert (LG : length (map energy_part nodes) = 39%nat) by reflexivity.
  pose proof (nodes_nth 0 ltac:(lia)) as N0. destruct N0 as (q0 & N0 & E0). replace (nth 0 (map energy_part nodes) (0, 0, 0)%Z) with (hd (0, 0, 0)%Z (map energy_part nodes)) in E0 by reflexivity.
  assert (NI : (161 <= i)%nat -> exists q, In (Z.of_nat i, q) nodes /\ nth (i - 161) (map energy_part nodes) (0, 0, 0)%Z = energy_part (Z.of_nat i, q)).
  { intros J. destruct (nodes_nth (i - 161) ltac:(lia)) as (q & A & B). replace (161 + (i - 161))%nat with i in A, B by lia. exists q. now split. }
  revert C E0 NI LG. generalize (map energy_part nodes). intros gs C E0 NI LG. unfold row_ok in C. set (w := weight_dec z) in *.
  rewrite !andb_true_iff in C. destruct C as (((_ & C1) & C2) & C). apply Z.leb_le in C1. apply Z.ltb_lt in C2.
  set (den := (10 ^ (- dec_exp w))%Z) in *. pose proof (Rlit_frac w C1) as W. fold den in W.
  destruct (mass_part (dec_mant w) den) as [ma|] eqn:MA; [|discriminate]. destruct (mass_part (21 * dec_mant w) (20 * den)) as [mh|] eqn:MH; [|discriminate].
  destruct ma as [al ah], mh as [bl bh]. apply mass_part_ok in MA, MH. destruct MA as [MA A0], MH as [MH B0]. rewrite <- W in MA, A0.
  assert (D0 : 0 < IZR den) by (apply IZR_lt; unfold den; apply Z.pow_pos_nonneg; lia).
  replace (IZR (21 * dec_mant w) / IZR (20 * den)) with (21 / 20 * Rlit w) in MH, B0 by (rewrite W, !mult_IZR; field; lra).
  rewrite !andb_true_iff in C. destruct C as (((L1 & L2) & CA) & CH). rewrite E0 in L1, L2.
  destruct ls_a_sizes as [SA1 SA2], ls_ahi_sizes as [SH1 SH2]. rewrite Forall_forall in SA2, SH2.
  assert (RA : length (nth (z - 1) ls_coefficients_a []) = 200%nat) by (apply SA2, nth_In; rewrite SA1; lia).
  assert (RH : length (nth (z - 1) ls_coefficients_ahi []) = 200%nat) by (apply SH2, nth_In; rewrite SH1; lia).
  split; [exact A0|]. unfold la, lh. destruct (Nat.lt_ge_cases i 161) as [J|J].
  - assert (LM : lorentz (G200 (IZR (Z.of_nat i))) <= lorentz (G200 (IZR (Z.of_nat (161 + 0))))) by (apply lorentz_mono, gval_le; [lia|lra|apply IZR_le; lia]).
    apply (below_ok _ _ (al, ah) (Rlit w) N0) in L1; [|exact A0|cbn [snd]; lra]. apply (below_ok _ _ (bl, bh) (21 / 20 * Rlit w) N0) in L2; [|exact B0|cbn [snd]; lra].
    split; intros Q; lra.
  - destruct (NI J) as (q & N & E). split; intros Q.
    + apply (close_ok _ _ q (al, ah)); try assumption. pose proof (combine_all _ _ _ i 0%dec (0, 0, 0)%Z RA LG ltac:(lia) CA) as K. cbn [fst snd] in K. rewrite E in K. exact K.
    + apply (close_ok _ _ q (bl, bh)); try assumption. pose proof (combine_all _ _ _ i 0%dec (0, 0, 0)%Z RH LG ltac:(lia) CH) as K. cbn [fst snd] in K. rewrite E in K. exact K.
Qed.
