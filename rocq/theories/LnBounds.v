(** * Bounds on logarithms computed with integers

    [ln_fix n num den] gives integers l, h with l <= S ln(num/den) <= h for 1 <= num/den <= 2, from n
    terms of the series of ln((1+t)/(1-t)); [ln_int] reduces larger numbers by powers of 2. *)
From Coq Require Import ZArith Reals List Bool Lra Lia.
Import ListNotations.
Local Open Scope R_scope.

(** ** The series *)
Fixpoint ser (n : nat) (t : R) : R := match n with O => 0 | S m => ser m t + 2 * t ^ (2 * m + 1) / (2 * INR m + 1) end.
Fixpoint ser' (n : nat) (t : R) : R := match n with O => 0 | S m => ser' m t + 2 * t ^ (2 * m) end.
Lemma ser_derive n t : derivable_pt_lim (ser n) t (ser' n t).
Proof.
  induction n as [|n IH].
  - apply derivable_pt_lim_const.
  - cbn [ser ser']. apply derivable_pt_lim_plus; [exact IH|].
    replace (2 * t ^ (2 * n)) with (2 / (2 * INR n + 1) * (INR (2 * n + 1) * t ^ pred (2 * n + 1))).
    + apply (derivable_pt_lim_ext (mult_real_fct (2 / (2 * INR n + 1)) (fun x => x ^ (2 * n + 1)))).
      * intros x. unfold mult_real_fct, Rdiv. ring.
      * apply derivable_pt_lim_scal. apply derivable_pt_lim_pow.
    + replace (pred (2 * n + 1)) with (2 * n)%nat by lia. rewrite plus_INR, mult_INR. cbn [INR]. pose proof (pos_INR n). field. lra.
Qed.
Lemma ser'_sum n t : (1 - t * t) * ser' n t = 2 * (1 - t ^ (2 * n)).
Proof.
  induction n as [|n IH]; [cbn; ring|]. cbn [ser']. rewrite Rmult_plus_distr_l, IH. replace (2 * S n)%nat with (S (S (2 * n))) by lia. cbn [pow]. ring.
Qed.
Lemma ln_series n t : 0 <= t <= 1 / 3 -> ser n t <= ln ((1 + t) / (1 - t)) <= ser n t + 9 / 4 * t ^ (2 * n + 1).
Proof.
  intros [T0 T1]. replace (ln ((1 + t) / (1 - t))) with (ln (1 + t) - ln (1 - t)) by (unfold Rdiv; rewrite ln_mult, ln_Rinv; try lra; apply Rinv_0_lt_compat; lra).
  destruct (Req_dec t 0) as [->|NE].
  - replace (1 + 0) with 1 by ring. replace (1 - 0) with 1 by ring. rewrite ln_1. assert (E : ser n 0 = 0).
    { induction n as [|n IH]; [reflexivity|]. cbn [ser]. rewrite IH, pow_i by lia. unfold Rdiv. ring. }
    rewrite E, pow_i by lia. lra.
  - set (f := fun x => ln (1 + x) - ln (1 - x) - ser n x).
    destruct (MVT_cor2 f (fun x => / (1 + x) * 1 - / (1 - x) * (-1) - ser' n x) 0 t ltac:(lra)) as (c & EC & C).
    + intros c C. unfold f. apply derivable_pt_lim_minus; [|apply ser_derive]. apply derivable_pt_lim_minus.
      * apply (derivable_pt_lim_comp (fun x => 1 + x) ln c 1 (/ (1 + c))).
        -- assert (K : derivable_pt_lim (fun x => 1 + x) c (0 + 1)) by (apply (derivable_pt_lim_plus (fct_cte 1) id); [apply derivable_pt_lim_const|apply derivable_pt_lim_id]). rewrite Rplus_0_l in K. exact K.
        -- apply derivable_pt_lim_ln. lra.
      * apply (derivable_pt_lim_comp (fun x => 1 - x) ln c (-1) (/ (1 - c))).
        -- assert (K : derivable_pt_lim (fun x => 1 - x) c (0 - 1)) by (apply (derivable_pt_lim_minus (fct_cte 1) id); [apply derivable_pt_lim_const|apply derivable_pt_lim_id]). replace (0 - 1) with (-1) in K by ring. exact K.
        -- apply derivable_pt_lim_ln. lra.
    + assert (F0 : f 0 = 0).
      { unfold f. replace (1 + 0) with 1 by ring. replace (1 - 0) with 1 by ring. assert (E : ser n 0 = 0).
        { clear. induction n as [|n IH]; [reflexivity|]. cbn [ser]. rewrite IH, pow_i by lia. unfold Rdiv. ring. }
        rewrite E. ring. }
      assert (D : 0 < 1 - c * c) by nra.
      assert (FD : / (1 + c) * 1 - / (1 - c) * (-1) - ser' n c = 2 * c ^ (2 * n) / (1 - c * c)).
      { assert (E : ser' n c = 2 * (1 - c ^ (2 * n)) / (1 - c * c)) by (rewrite <- ser'_sum; field; lra). rewrite E. field. repeat split; nra. }
      rewrite F0, FD, !Rminus_0_r in EC. unfold f in EC.
      assert (PC : 0 <= c ^ (2 * n) <= t ^ (2 * n)) by (split; [apply pow_le; lra|apply pow_incr; lra]).
      assert (IV : 1 <= / (1 - c * c) <= 9 / 8).
      { split; [rewrite <- Rinv_1 at 1; apply Rinv_le_contravar; nra|]. replace (9 / 8) with (/ (8 / 9)) by field. apply Rinv_le_contravar; nra. }
      replace (2 * n + 1)%nat with (S (2 * n)) by lia. cbn [pow]. unfold Rdiv in EC.
      assert (0 <= c ^ (2 * n) * / (1 - c * c) <= t ^ (2 * n) * (9 / 8)).
      { split; [apply Rmult_le_pos; lra|apply Rmult_le_compat; lra]. }
      assert (0 <= 2 * c ^ (2 * n) * / (1 - c * c) * t <= 9 / 4 * (t * t ^ (2 * n))) by (split; nra).
      lra.
Qed.

(** ** With integers *)
Local Open Scope Z_scope.
Definition SC : Z := 2 ^ 50.
(** sum of p/(2j+1) for j = j0, j0+1, .. where p starts between pl and ph and is multiplied by a number between tl and th *)
Fixpoint acc (n : nat) (j pl ph tl th : Z) (sl sh : Z) : Z * Z * Z :=
  match n with
  | O => (sl, sh, ph)
  | S m => acc m (j + 1) (pl * tl / SC) (ph * th / SC + 1) tl th (sl + pl / (2 * j + 1)) (sh + ph / (2 * j + 1) + 1)
  end.
Definition ln_fix (n : nat) (num den : Z) : Z * Z :=
  let a := num - den in let b := num + den in
  let tl := a * SC / b in let th := tl + 1 in
  let '(sl, sh, p) := acc n 0 tl th (tl * tl / SC) (th * th / SC + 1) 0 0 in
  (2 * sl, 2 * sh + 3 * p).
Local Open Scope R_scope.

Lemma SC_pos : 0 < IZR SC. Proof. apply IZR_lt. reflexivity. Qed.
Lemma div_le (a b : Z) : (0 < b)%Z -> IZR (a / b) <= IZR a / IZR b < IZR (a / b) + 1.
Proof.
  intros B. assert (BR : 0 < IZR b) by (now apply IZR_lt). pose proof (Z.mul_div_le a b B) as L. pose proof (Z.mul_succ_div_gt a b B) as G.
  apply IZR_le in L. apply IZR_lt in G. rewrite mult_IZR in L, G. rewrite succ_IZR in G. split.
  - apply Rmult_le_reg_r with (IZR b); [exact BR|]. unfold Rdiv. rewrite Rmult_assoc, Rinv_l, Rmult_1_r by lra. lra.
  - apply Rmult_lt_reg_r with (IZR b); [exact BR|]. unfold Rdiv. rewrite Rmult_assoc, Rinv_l, Rmult_1_r by lra. lra.
Qed.
Lemma acc_ok t n : 0 <= t -> forall j pl ph tl th sl sh s, (0 <= pl)%Z -> (0 <= tl)%Z ->
  IZR pl <= t ^ (2 * j + 1) * IZR SC <= IZR ph -> IZR tl <= t * t * IZR SC <= IZR th -> IZR sl <= s * IZR SC <= IZR sh ->
  let '(l, h, p) := acc n (Z.of_nat j) pl ph tl th sl sh in
  exists s', IZR l <= s' * IZR SC <= IZR h /\ s' * 2 = s * 2 + (ser (j + n) t - ser j t) /\ t ^ (2 * (j + n) + 1) * IZR SC <= IZR p.
Proof.
  intros T0. pose proof SC_pos as S0. induction n as [|n IH]; intros j pl ph tl th sl sh s PL TL P TT SS.
  - cbn [acc]. exists s. rewrite Nat.add_0_r. split; [lra|]. split; [lra|exact (proj2 P)].
  - cbn [acc]. set (d := (2 * Z.of_nat j + 1)%Z). assert (D0 : (0 < d)%Z) by (unfold d; lia).
    assert (DR : IZR d = 2 * INR j + 1) by (unfold d; rewrite plus_IZR, mult_IZR, <- INR_IZR_INZ; reflexivity).
    assert (DR0 : 0 < IZR d) by (now apply IZR_lt).
    replace (Z.of_nat j + 1)%Z with (Z.of_nat (S j)) by lia.
    assert (PT : 0 <= t ^ (2 * j + 1)) by (now apply pow_le).
    specialize (IH (S j) (pl * tl / SC)%Z (ph * th / SC + 1)%Z tl th (sl + pl / d)%Z (sh + ph / d + 1)%Z (s + t ^ (2 * j + 1) / IZR d)).
    destruct (acc n (Z.of_nat (S j)) _ _ tl th _ _) as [[l h] p] eqn:E.
    destruct IH as (s' & A & B & C).
    + apply Z.div_pos; [apply Z.mul_nonneg_nonneg; assumption|reflexivity].
    + exact TL.
    + replace (2 * S j + 1)%nat with (S (S (2 * j + 1))) by lia. cbn [pow].
      assert (SCp : (0 < SC)%Z) by reflexivity.
      destruct (div_le (pl * tl) SC SCp) as [Q1 _]. destruct (div_le (ph * th) SC SCp) as [_ Q2]. rewrite mult_IZR in Q1, Q2. rewrite plus_IZR.
      replace (t * (t * t ^ (2 * j + 1)) * IZR SC) with ((t ^ (2 * j + 1) * IZR SC) * (t * t * IZR SC) / IZR SC) by (field; lra).
      assert (PLR : 0 <= IZR pl) by (now apply IZR_le). assert (TLR : 0 <= IZR tl) by (now apply IZR_le).
      split.
      * eapply Rle_trans; [exact Q1|]. apply Rmult_le_compat_r; [left; now apply Rinv_0_lt_compat|]. apply Rmult_le_compat; lra.
      * left. eapply Rle_lt_trans; [|exact Q2]. apply Rmult_le_compat_r; [left; now apply Rinv_0_lt_compat|]. apply Rmult_le_compat; try lra; apply Rmult_le_pos; nra.
    + exact TT.
    + destruct (div_le pl d D0) as [Q1 _]. destruct (div_le ph d D0) as [_ Q2]. rewrite !plus_IZR.
      assert (G1 : IZR pl / IZR d <= t ^ (2 * j + 1) * IZR SC / IZR d) by (apply Rmult_le_compat_r; [left; now apply Rinv_0_lt_compat|lra]).
      assert (G2 : t ^ (2 * j + 1) * IZR SC / IZR d <= IZR ph / IZR d) by (apply Rmult_le_compat_r; [left; now apply Rinv_0_lt_compat|lra]).
      replace ((s + t ^ (2 * j + 1) / IZR d) * IZR SC) with (s * IZR SC + t ^ (2 * j + 1) * IZR SC / IZR d) by (field; lra). lra.
    + exists s'. split; [exact A|]. split; [|replace (j + S n)%nat with (S j + n)%nat by lia; exact C].
      rewrite B. replace (S j + n)%nat with (j + S n)%nat by lia. change (ser (S j) t) with (ser j t + 2 * t ^ (2 * j + 1) / (2 * INR j + 1)). rewrite DR. field. rewrite <- DR. lra.
Qed.
Lemma ln_fix_ok n num den : (0 < den <= num)%Z -> (num <= 2 * den)%Z ->
  IZR (fst (ln_fix n num den)) <= ln (IZR num / IZR den) * IZR SC <= IZR (snd (ln_fix n num den)).
Proof.
  intros [D0 DN] N2. unfold ln_fix. set (a := (num - den)%Z). set (b := (num + den)%Z). pose proof SC_pos as S0. assert (SCp : (0 < SC)%Z) by reflexivity.
  assert (B0 : (0 < b)%Z) by (unfold b; lia). assert (BR : 0 < IZR b) by (now apply IZR_lt). assert (A0 : 0 <= IZR a) by (apply IZR_le; unfold a; lia).
  set (t := IZR a / IZR b). assert (T0 : 0 <= t) by (apply Rmult_le_pos; [exact A0|left; now apply Rinv_0_lt_compat]).
  assert (T1 : t <= 1 / 3).
  { apply Rmult_le_reg_r with (IZR b); [exact BR|]. unfold t, Rdiv. rewrite Rmult_assoc, Rinv_l, Rmult_1_r by lra.
    assert (3 * IZR a <= IZR b) by (rewrite <- mult_IZR; apply IZR_le; unfold a, b; lia). lra. }
  set (tl := (a * SC / b)%Z). destruct (div_le (a * SC) b B0) as [L1 L2]. fold tl in L1, L2. rewrite mult_IZR in L1, L2.
  replace (IZR a * IZR SC / IZR b) with (t * IZR SC) in L1, L2 by (unfold t; field; lra).
  assert (TL : (0 <= tl)%Z) by (apply Z.div_pos; [apply Z.mul_nonneg_nonneg; [unfold a; lia|lia]|exact B0]).
  assert (TLR : 0 <= IZR tl) by (now apply IZR_le).
  assert (Q : IZR (tl * tl / SC) <= t * t * IZR SC <= IZR ((tl + 1) * (tl + 1) / SC + 1)).
  { destruct (div_le (tl * tl) SC SCp) as [Q1 _]. destruct (div_le ((tl + 1) * (tl + 1)) SC SCp) as [_ Q2]. rewrite mult_IZR in Q1, Q2. rewrite !plus_IZR in *.
    replace (t * t * IZR SC) with ((t * IZR SC) * (t * IZR SC) / IZR SC) by (field; lra). split.
    - eapply Rle_trans; [exact Q1|]. apply Rmult_le_compat_r; [left; now apply Rinv_0_lt_compat|]. apply Rmult_le_compat; lra.
    - left. eapply Rle_lt_trans; [|exact Q2]. apply Rmult_le_compat_r; [left; now apply Rinv_0_lt_compat|]. apply Rmult_le_compat; nra. }
  pose proof (acc_ok t n T0 0 tl (tl + 1) (tl * tl / SC) ((tl + 1) * (tl + 1) / SC + 1) 0 0 0 TL) as K. cbn [Z.of_nat] in K.
  destruct (acc n 0 tl (tl + 1) (tl * tl / SC) ((tl + 1) * (tl + 1) / SC + 1) 0 0) as [[l h] p].
  destruct K as (s' & K1 & K2 & K3).
  - apply Z.div_pos; [apply Z.mul_nonneg_nonneg; assumption|exact SCp].
  - cbn [Nat.mul Nat.add pow]. rewrite plus_IZR. rewrite Rmult_1_r. lra.
  - exact Q.
  - rewrite Rmult_0_l. lra.
  - cbn [fst snd]. cbn [Nat.add] in *. change (ser 0 t) with 0 in K2.
    assert (LE : ln (IZR num / IZR den) = ln ((1 + t) / (1 - t))).
    { f_equal. unfold t. assert (DR : 0 < IZR den) by (now apply IZR_lt). assert (BE : IZR b = IZR num + IZR den) by (unfold b; apply plus_IZR). assert (AE : IZR a = IZR num - IZR den) by (unfold a; apply minus_IZR).
      rewrite AE, BE in *. field. split; [|lra]. lra. }
    rewrite LE. destruct (ln_series n t (conj T0 T1)) as [S1 S2]. rewrite mult_IZR, plus_IZR, !mult_IZR.
    assert (ser n t = 2 * s') by lra. assert (TP : 0 <= t ^ (2 * n + 1)) by (now apply pow_le).
    split.
    + apply Rle_trans with (2 * s' * IZR SC); [lra|]. apply Rmult_le_compat_r; lra.
    + apply Rle_trans with ((2 * s' + 9 / 4 * t ^ (2 * n + 1)) * IZR SC); [apply Rmult_le_compat_r; lra|].
      assert (0 <= t ^ (2 * n + 1) * IZR SC) by (apply Rmult_le_pos; lra). lra.
Qed.

(** ** Any ratio not less than 1: 2^k times a number between 1 and 2 *)
Definition NT : nat := 18.
Definition ln2_lh : Z * Z := ln_fix NT 2 1.
Definition ln_int (num den : Z) : option (Z * Z) :=
  let k := (Z.log2 (num / den))%Z in let d := (den * 2 ^ k)%Z in
  if ((0 <? den) && (den <=? num) && (0 <=? k) && (d <=? num) && (num <=? 2 * d))%Z
  then let (l, h) := ln_fix NT num d in let (l2, h2) := ln2_lh in Some (l + k * l2, h + k * h2)%Z
  else None.
Lemma ln_int_ok num den l h : ln_int num den = Some (l, h) -> 0 < IZR den /\ IZR den <= IZR num /\ IZR l <= ln (IZR num / IZR den) * IZR SC <= IZR h.
Proof.
  unfold ln_int. set (k := (Z.log2 (num / den))%Z). set (d := (den * 2 ^ k)%Z).
  destruct ((0 <? den) && (den <=? num) && (0 <=? k) && (d <=? num) && (num <=? 2 * d))%Z eqn:C; [|discriminate].
  rewrite !andb_true_iff in C. destruct C as ((((C1 & C2) & C3) & C4) & C5). apply Z.ltb_lt in C1. apply Z.leb_le in C2, C3, C4, C5.
  assert (P2 : (0 < 2 ^ k)%Z) by (apply Z.pow_pos_nonneg; lia). assert (D0 : (0 < d)%Z) by (unfold d; nia).
  pose proof (ln_fix_ok NT num d ltac:(lia) C5) as A. pose proof (ln_fix_ok NT 2 1 ltac:(lia) ltac:(lia)) as B. fold ln2_lh in B.
  destruct (ln_fix NT num d) as [l1 h1]. destruct ln2_lh as [l2 h2]. cbn [fst snd] in A, B. intros H. injection H as <- <-.
  apply IZR_lt in C1. pose proof (IZR_lt _ _ D0) as DR. split; [exact C1|]. split; [now apply IZR_le|].
  assert (PR : IZR (2 ^ k) = exp (IZR k * ln 2)).
  { rewrite <- (Z2Nat.id k C3) at 1. rewrite <- pow_IZR. rewrite <- (Rpower_pow (Z.to_nat k) (IZR 2)) by (apply IZR_lt; lia). unfold Rpower. rewrite INR_IZR_INZ, Z2Nat.id by exact C3. reflexivity. }
  assert (LE : ln (IZR num / IZR den) = ln (IZR num / IZR d) + IZR k * ln 2).
  { assert (N0 : 0 < IZR num) by (apply IZR_le in C4; lra).
    replace (IZR num / IZR den) with (IZR num / IZR d * IZR (2 ^ k)).
    - rewrite ln_mult; [|apply Rmult_lt_0_compat; [exact N0|now apply Rinv_0_lt_compat]|now apply IZR_lt]. f_equal. rewrite PR. apply ln_exp.
    - unfold d. rewrite mult_IZR. apply IZR_lt in P2. field. split; lra. }
  rewrite LE, !plus_IZR, !mult_IZR. replace (2 / 1) with 2 in B by field. apply IZR_le in C3.
  assert (IZR k * IZR l2 <= IZR k * (ln 2 * IZR SC)) by (apply Rmult_le_compat_l; lra). assert (IZR k * (ln 2 * IZR SC) <= IZR k * IZR h2) by (apply Rmult_le_compat_l; lra). lra.
Qed.

(** ** ln(1+x) for x >= 0 *)
Lemma ln1p_derive x : 0 <= x -> derivable_pt_lim (fun y => ln (1 + y)) x (/ (1 + x)).
Proof.
  intros H. rewrite <- (Rmult_1_r (/ (1 + x))). apply (derivable_pt_lim_comp (fun y => 1 + y) ln x 1 (/ (1 + x))).
  - assert (K : derivable_pt_lim (fun y => 1 + y) x (0 + 1)) by (apply (derivable_pt_lim_plus (fct_cte 1) id); [apply derivable_pt_lim_const|apply derivable_pt_lim_id]). rewrite Rplus_0_l in K. exact K.
  - apply derivable_pt_lim_ln. lra.
Qed.
Lemma poly_derive a b x : derivable_pt_lim (fun y => y - a * y ^ 2 + b * y ^ 3) x (1 - 2 * a * x + 3 * b * x ^ 2).
Proof.
  replace (1 - 2 * a * x + 3 * b * x ^ 2) with (1 - a * (INR 2 * x ^ pred 2) + b * (INR 3 * x ^ pred 3)) by (cbn [INR pred pow]; ring).
  apply (derivable_pt_lim_plus (fun y => y - a * y ^ 2) (fun y => b * y ^ 3)).
  - apply (derivable_pt_lim_minus id (fun y => a * y ^ 2)); [apply derivable_pt_lim_id|]. apply (derivable_pt_lim_scal (fun y => y ^ 2)). apply derivable_pt_lim_pow.
  - apply (derivable_pt_lim_scal (fun y => y ^ 3)). apply derivable_pt_lim_pow.
Qed.
Lemma ln1p_bounds x : 0 <= x -> x - x ^ 2 / 2 <= ln (1 + x) <= x - x ^ 2 / 2 + x ^ 3 / 3.
Proof.
  intros [H| <-]; [|rewrite Rplus_0_r, ln_1; lra].
  assert (Z : forall b, 0 - 1 / 2 * 0 ^ 2 + b * 0 ^ 3 = 0) by (intros; ring).
  assert (L : forall c, 0 < c -> 1 - c <= / (1 + c) <= 1 - c + c ^ 2).
  { intros c C. assert (Q : / (1 + c) * (1 + c) = 1) by (field; lra). assert (0 < / (1 + c)) by (apply Rinv_0_lt_compat; lra). split; nra. }
  split.
  - destruct (MVT_cor2 (fun y => ln (1 + y) - (y - 1 / 2 * y ^ 2 + 0 * y ^ 3)) (fun y => / (1 + y) - (1 - 2 * (1 / 2) * y + 3 * 0 * y ^ 2)) 0 x H) as (c & E & C).
    { intros c C. apply derivable_pt_lim_minus; [apply ln1p_derive; lra|apply poly_derive]. }
    rewrite Z, Rplus_0_r, ln_1 in E. specialize (L c ltac:(lra)). nra.
  - destruct (MVT_cor2 (fun y => ln (1 + y) - (y - 1 / 2 * y ^ 2 + 1 / 3 * y ^ 3)) (fun y => / (1 + y) - (1 - 2 * (1 / 2) * y + 3 * (1 / 3) * y ^ 2)) 0 x H) as (c & E & C).
    { intros c C. apply derivable_pt_lim_minus; [apply ln1p_derive; lra|apply poly_derive]. }
    rewrite Z, Rplus_0_r, ln_1 in E. specialize (L c ltac:(lra)). nra.
Qed.
