(** * Relative errors of binary64 computations with positive numbers *)
From Flocq Require Import Core.
From Coq Require Import ZArith Reals List Bool Lra Lia Floats SpecFloat.
From Verif Require Import Num NumR NumF Binary64 Binary64Num PropTableFloat.
Local Open Scope R_scope.

(** [v] is the positive number [r] up to the relative error [k * u], where [u] is half a unit of the last place of 1 *)
Definition rel (v r k : R) : Prop := r * (1 - k * u) <= v <= r * (1 + k * u).
Definition relF (x : float) (r k : R) : Prop := fin x /\ rel (val x) r k.

Lemma u_small : 0 < u < / 10 ^ 15. Proof. unfold u. lra. Qed.
Lemma ku_small k : 0 <= k <= 1000 -> 0 <= k * u <= / 10 ^ 12.
Proof. pose proof u_small. intros H0. split; [apply Rmult_le_pos; lra|]. apply Rle_trans with (1000 * u); [apply Rmult_le_compat_r; lra|lra]. Qed.
Lemma kkuu j k : 0 <= j <= 1000 -> 0 <= k <= 1000 -> 0 <= j * u * (k * u) <= / 10 * u.
Proof.
  intros J K. pose proof (ku_small j J). pose proof (ku_small k K). pose proof u_small as U. split; [apply Rmult_le_pos; lra|]. apply Rle_trans with (/ 10 ^ 12 * (1000 * u)); [|lra]. apply Rmult_le_compat; try lra. apply Rmult_le_compat_r; lra.
Qed.
Lemma rel_pos v r k : 0 < r -> 0 <= k <= 1000 -> rel v r k -> r / 2 <= v <= 2 * r.
Proof. intros R0 K [A B]. pose proof (ku_small k K). split; [apply Rle_trans with (r * (1 - k * u)); [|exact A]|apply Rle_trans with (r * (1 + k * u)); [exact B|]]; nra. Qed.
Lemma rel_weaken v r j k : 0 <= r -> j <= k -> rel v r j -> rel v r k.
Proof. intros R0 J [A B]. pose proof u_small. assert (0 <= r * ((k - j) * u)) by (apply Rmult_le_pos; [lra|apply Rmult_le_pos; lra]). split; lra. Qed.
Lemma relF_weaken x r j k : 0 <= r -> j <= k -> relF x r j -> relF x r k.
Proof. intros R0 J [A B]. split; [exact A|]. now apply rel_weaken with j. Qed.
Lemma relF_exact x : fin x -> relF x (val x) 0.
Proof. intros F. split; [exact F|]. split; lra. Qed.
Lemma rel_abs v r k : 0 <= r -> rel v r k -> Rabs (v - r) <= k * u * r.
Proof. intros R0 [A B]. apply Rabs_le. split; nra. Qed.

Lemma rel_mul a b r s j k : 0 < r -> 0 < s -> 0 <= j <= 1000 -> 0 <= k <= 1000 -> rel a r j -> rel b s k -> rel (a * b) (r * s) (j + k + / 10).
Proof.
  intros R0 S0 J K [A1 A2] [B1 B2]. pose proof (ku_small j J) as UJ. pose proof (ku_small k K) as UK. pose proof (kkuu j k J K) as JK. assert (RS : 0 < r * s) by (apply Rmult_lt_0_compat; lra).
  split.
  - apply Rle_trans with (r * (1 - j * u) * (s * (1 - k * u))).
    + replace (r * (1 - j * u) * (s * (1 - k * u))) with (r * s * (1 - j * u - k * u + j * u * (k * u))) by ring. apply Rmult_le_compat_l; [lra|]. pose proof u_small. lra.
    + apply Rmult_le_compat; try assumption; apply Rmult_le_pos; lra.
  - apply Rle_trans with (r * (1 + j * u) * (s * (1 + k * u))).
    + apply Rmult_le_compat; try assumption; (apply Rle_trans with (2 := A1) || apply Rle_trans with (2 := B1)); apply Rmult_le_pos; lra.
    + replace (r * (1 + j * u) * (s * (1 + k * u))) with (r * s * (1 + j * u + k * u + j * u * (k * u))) by ring. apply Rmult_le_compat_l; [lra|]. pose proof u_small. lra.
Qed.
Lemma rel_inv a r k : 0 < r -> 0 <= k <= 1000 -> rel a r k -> rel (/ a) (/ r) (k + / 10).
Proof.
  intros R0 K A. pose proof (rel_pos _ _ _ R0 K A) as P. destruct A as [A1 A2]. pose proof (ku_small k K) as UK. pose proof (kkuu k k K K) as KK. pose proof u_small as U. assert (I0 : 0 < / r) by (apply Rinv_0_lt_compat; lra).
  split; apply Rmult_le_reg_r with (a * r); try (apply Rmult_lt_0_compat; lra); replace (/ a * (a * r)) with r by (field; lra); [replace (/ r * (1 - (k + / 10) * u) * (a * r)) with (a * (1 - (k + / 10) * u)) by (field; lra)|replace (/ r * (1 + (k + / 10) * u) * (a * r)) with (a * (1 + (k + / 10) * u)) by (field; lra)].
  - apply Rle_trans with (r * (1 + k * u) * (1 - (k + / 10) * u)); [apply Rmult_le_compat_r; lra|]. replace (r * (1 + k * u) * (1 - (k + / 10) * u)) with (r * (1 - / 10 * u - k * u * (k * u) - / 10 * u * (k * u))) by ring. assert (0 <= / 10 * u * (k * u)) by (apply Rmult_le_pos; lra). assert (r * (1 - / 10 * u - k * u * (k * u) - / 10 * u * (k * u)) <= r * 1) by (apply Rmult_le_compat_l; lra). lra.
  - apply Rle_trans with (r * (1 - k * u) * (1 + (k + / 10) * u)); [|apply Rmult_le_compat_r; lra]. replace (r * (1 - k * u) * (1 + (k + / 10) * u)) with (r * (1 + / 10 * u - k * u * (k * u) - / 10 * u * (k * u))) by ring.
    assert (KS : k * u * (k * u) <= / 20 * u). { apply Rle_trans with (/ 10 ^ 12 * (1000 * u)); [|lra]. apply Rmult_le_compat; try lra. apply Rmult_le_compat_r; lra. }
    assert (/ 10 * u * (k * u) <= / 20 * u). { apply Rle_trans with (/ 10 * u * (/ 10)); [apply Rmult_le_compat_l; lra|lra]. }
    assert (r * 1 <= r * (1 + / 10 * u - k * u * (k * u) - / 10 * u * (k * u))) by (apply Rmult_le_compat_l; lra). lra.
Qed.
Lemma rel_div a b r s j k : 0 < r -> 0 < s -> 0 <= j <= 999 -> 0 <= k <= 999 -> rel a r j -> rel b s k -> rel (a / b) (r / s) (j + k + / 5).
Proof.
  intros R0 S0 J K A B. unfold Rdiv. apply rel_weaken with (j + (k + / 10) + / 10); [left; apply Rmult_lt_0_compat; [lra|apply Rinv_0_lt_compat; lra]|lra|].
  apply rel_mul; try lra; [apply Rinv_0_lt_compat; lra|exact A|]. apply rel_inv; try lra. exact B.
Qed.
Lemma rel_add a b r s k : rel a r k -> rel b s k -> rel (a + b) (r + s) k.
Proof. intros [A1 A2] [B1 B2]. split; lra. Qed.
Lemma rel_sqrt a r k : 0 < r -> 0 <= k <= 1000 -> rel a r k -> rel (R_sqrt.sqrt a) (R_sqrt.sqrt r) (k / 2 + / 10).
Proof.
  intros R0 K A. pose proof (rel_pos _ _ _ R0 K A) as P. destruct A as [A1 A2]. pose proof (ku_small k K) as UK. pose proof (kkuu k k K K) as KK. pose proof u_small as U. pose proof (sqrt_lt_R0 r R0) as SR. pose proof (sqrt_sqrt r ltac:(lra)) as SS. set (s := R_sqrt.sqrt r) in *. clearbody s.
  assert (EA : forall c, 0 <= c -> R_sqrt.sqrt (s * c * (s * c)) = s * c) by (intros c C; apply sqrt_square, Rmult_le_pos; lra).
  set (m := (k / 2 + / 10) * u). assert (M0 : 0 <= m <= / 10) by (unfold m; split; [apply Rmult_le_pos; lra|replace ((k / 2 + / 10) * u) with (k * u / 2 + / 10 * u) by field; lra]). unfold rel. fold m. split.
  - rewrite <- (EA (1 - m)) by lra. apply sqrt_le_1_alt. apply Rle_trans with (2 := A1). replace (s * (1 - m) * (s * (1 - m))) with (r * ((1 - m) * (1 - m))) by (rewrite <- SS; ring). apply Rmult_le_compat_l; [lra|].
    assert (m * m <= / 10 * u). { unfold m. apply kkuu; lra. } unfold m in *. replace ((1 - (k / 2 + / 10) * u) * (1 - (k / 2 + / 10) * u)) with (1 - k * u - / 5 * u + (k / 2 + / 10) * u * ((k / 2 + / 10) * u)) by field. lra.
  - rewrite <- (EA (1 + m)) by lra. apply sqrt_le_1_alt. apply Rle_trans with (1 := A2). replace (s * (1 + m) * (s * (1 + m))) with (r * ((1 + m) * (1 + m))) by (rewrite <- SS; ring). apply Rmult_le_compat_l; [lra|].
    assert (0 <= m * m) by (apply Rmult_le_pos; lra). unfold m in *. replace ((1 + (k / 2 + / 10) * u) * (1 + (k / 2 + / 10) * u)) with (1 + k * u + / 5 * u + (k / 2 + / 10) * u * ((k / 2 + / 10) * u)) by field. lra.
Qed.
Lemma rel_rnd a r k : / 10 ^ 29 <= r -> 0 <= k <= 999 -> rel a r k -> rel (rnd a) r (k + 11 / 10).
Proof.
  intros R0 K A. assert (RP : 0 < r) by lra. pose proof (rel_pos a r k RP ltac:(lra) A) as P. pose proof (rnd_pos a ltac:(lra)) as B. pose proof u_small as U. 
  replace (k + 11 / 10) with (k + 1 + / 10) by lra. replace r with (r * 1) by ring. assert (Q : rel (a * (rnd a / a)) (r * 1) (k + 1 + / 10)).
  { apply rel_mul; try lra; [exact A|]. split; apply Rmult_le_reg_r with a; try lra; unfold Rdiv; rewrite (Rmult_assoc (rnd a)), Rinv_l by lra; lra. }
  replace (rnd a) with (a * (rnd a / a)) by (field; lra). exact Q.
Qed.

Lemma relF_bound v r k : 0 < r <= 10 ^ 199 -> 0 <= k <= 1000 -> rel v r k -> Rabs v <= big.
Proof. intros R0 K A. pose proof (rel_pos _ _ _ (proj1 R0) K A). pose proof big_big. rewrite Rabs_pos_eq by lra. lra. Qed.

Definition sane (r : R) : Prop := / 10 ^ 29 <= r <= 10 ^ 150.
Lemma sane_pos r : sane r -> 0 < r. Proof. unfold sane. lra. Qed.
Lemma sane_big v r k : sane r -> 0 <= k <= 1000 -> rel v r k -> Rabs v <= big.
Proof. intros [A B] K. apply relF_bound; [|exact K]. split; [lra|]. apply Rle_trans with (1 := B). apply Rle_pow; [lra|]. apply Nat.leb_le. reflexivity. Qed.

Lemma relF_mul x y r s j k : relF x r j -> relF y s k -> 0 <= j <= 400 -> 0 <= k <= 400 -> 0 < r -> 0 < s -> sane (r * s) -> relF (x * y) (r * s) (j + k + 12 / 10).
Proof.
  intros [X A] [Y B] J K R0 S0 S. pose proof (rel_mul _ _ _ _ _ _ R0 S0 (ltac:(lra) : 0 <= j <= 1000) (ltac:(lra) : 0 <= k <= 1000) A B) as Q. destruct (mul_val x y X Y) as [F V]; [refine (sane_big _ _ _ S _ Q); lra|].
  split; [exact F|]. rewrite V. apply rel_weaken with (j + k + / 10 + 11 / 10); [destruct S; lra|lra|]. apply rel_rnd; [exact (proj1 S)|lra|exact Q].
Qed.
Lemma relF_div x y r s j k : relF x r j -> relF y s k -> 0 <= j <= 400 -> 0 <= k <= 400 -> 0 < r -> 0 < s -> sane (r / s) -> relF (x / y) (r / s) (j + k + 13 / 10).
Proof.
  intros [X A] [Y B] J K R0 S0 S. pose proof (rel_div _ _ _ _ _ _ R0 S0 (ltac:(lra) : 0 <= j <= 999) (ltac:(lra) : 0 <= k <= 999) A B) as Q. pose proof (rel_pos _ _ _ S0 (ltac:(lra) : 0 <= k <= 1000) B). destruct (div_val x y X ltac:(lra)) as [F V]; [refine (sane_big _ _ _ S _ Q); lra|].
  split; [exact F|]. rewrite V. apply rel_weaken with (j + k + / 5 + 11 / 10); [destruct S; lra|lra|]. apply rel_rnd; [exact (proj1 S)|lra|exact Q].
Qed.
Lemma relF_add x y r s j k l : relF x r j -> relF y s k -> j <= l -> k <= l -> 0 <= l <= 999 -> 0 <= r -> 0 <= s -> sane (r + s) -> relF (x + y) (r + s) (l + 11 / 10).
Proof.
  intros A B J K L R0 S0 S. destruct (relF_weaken _ _ _ l R0 J A) as [X A']. destruct (relF_weaken _ _ _ l S0 K B) as [Y B']. pose proof (rel_add _ _ _ _ _ A' B') as Q. destruct (add_val x y X Y) as [F V]; [refine (sane_big _ _ _ S _ Q); lra|].
  split; [exact F|]. rewrite V. apply rel_rnd; [exact (proj1 S)|lra|exact Q].
Qed.
Lemma relF_sqrt x r k : relF x r k -> 0 <= k <= 999 -> sane r -> relF (PrimFloat.sqrt x) (R_sqrt.sqrt r) (k / 2 + 12 / 10).
Proof.
  intros [X A] K S. pose proof (sane_pos r S) as R0. pose proof (rel_pos (val x) r k R0 ltac:(lra) A) as P. pose proof (rel_sqrt (val x) r k R0 ltac:(lra) A) as Q. destruct (sqrt_val x X ltac:(lra)) as [F V]. split; [exact F|]. rewrite V.
  apply rel_weaken with (k / 2 + / 10 + 11 / 10); [apply sqrt_pos|lra|]. apply rel_rnd; [|lra|exact Q].
  assert (E : / 10 ^ 29 = R_sqrt.sqrt (/ 10 ^ 29 * / 10 ^ 29)) by (rewrite sqrt_square; lra). rewrite E. apply sqrt_le_1_alt. destruct S. lra.
Qed.
