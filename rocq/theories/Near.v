(** * Numbers within a factor of each other *)
From Coq Require Import ZArith Reals Lra Lia.
From Verif Require Import NumR BetheProofs.
Local Open Scope R_scope.

(** both positive, and neither larger than k times the other *)
Definition near (k a b : R) : Prop := 0 < a /\ 0 < b /\ b <= k * a /\ a <= k * b.

Lemma near_mult k l a b c d : near k a b -> near l c d -> near (k * l) (a * c) (b * d).
Proof.
  intros (A & B & AB & BA) (C & D & CD & DC). split; [now apply Rmult_lt_0_compat|]. split; [now apply Rmult_lt_0_compat|]. split.
  - replace (k * l * (a * c)) with ((k * a) * (l * c)) by ring. apply Rmult_le_compat; lra.
  - replace (k * l * (b * d)) with ((k * b) * (l * d)) by ring. apply Rmult_le_compat; lra.
Qed.
Lemma near_inv k a b : near k a b -> near k (/ a) (/ b).
Proof.
  intros (A & B & AB & BA). split; [now apply Rinv_0_lt_compat|]. split; [now apply Rinv_0_lt_compat|]. split; apply (Rmult_le_reg_l (a * b)); try (apply Rmult_lt_0_compat; assumption).
  - replace (a * b * / b) with a by (field; lra). replace (a * b * (k * / a)) with (k * b) by (field; lra). exact BA.
  - replace (a * b * / a) with b by (field; lra). replace (a * b * (k * / b)) with (k * a) by (field; lra). exact AB.
Qed.
Lemma near_div k l a b c d : near k a b -> near l c d -> near (k * l) (a / c) (b / d).
Proof. intros H1 H2. apply near_mult; [exact H1|apply near_inv, H2]. Qed.
Lemma near_plus k a b c d : near k a b -> near k c d -> near k (a + c) (b + d).
Proof. intros (A & B & AB & BA) (C & D & CD & DC). repeat split; lra. Qed.
Lemma near_weaken k l a b : k <= l -> near k a b -> near l a b.
Proof. intros L (A & B & AB & BA). repeat split; nra. Qed.
Lemma near_refl k a : 1 <= k -> 0 < a -> near k a a.
Proof. intros K A. repeat split; nra. Qed.
Lemma near_sym k a b : near k a b -> near k b a.
Proof. intros (A & B & AB & BA). repeat split; assumption. Qed.
Lemma near_trans k l a b c : 0 <= k -> 0 <= l -> near k a b -> near l b c -> near (k * l) a c.
Proof. intros K L (A & B & AB & BA) (_ & C & BC & CB). repeat split; try assumption; nra. Qed.
Lemma near_scale k m a b : 0 < m -> near k a b -> near k (m * a) (m * b).
Proof. intros M (A & B & AB & BA). repeat split; nra. Qed.
Lemma near_diff a b d m : 0 < m -> m <= a -> m <= b -> - d <= b - a <= d -> near (1 + d / m) a b.
Proof.
  intros M A B D. assert (Q : d / m * m = d) by (field; lra). set (r := d / m) in *. clearbody r. assert (0 <= r) by nra. repeat split; nra.
Qed.
(** a x / (a + x), in the form of the fits of stopping powers *)
Lemma near_harmonic k a b c d : near k a b -> near k c d -> near k (a * c / (a + c)) (b * d / (b + d)).
Proof.
  intros H1 H2. pose proof H1 as (A & B & _). pose proof H2 as (C & D & _).
  replace (a * c / (a + c)) with (/ (/ a + / c)) by (field; lra). replace (b * d / (b + d)) with (/ (/ b + / d)) by (field; lra).
  apply near_inv, near_plus; apply near_inv; assumption.
Qed.
(** powers and logarithms of numbers at most a factor q apart *)
Lemma pow_near q x z y n : 0 < x -> x <= z -> z <= q * x -> 0 <= y <= INR n -> near (q ^ n) (Rpower x y) (Rpower z y).
Proof.
  intros X XZ ZQ Y. assert (Q : 1 <= q) by nra. assert (Q0 : 1 <= q ^ n) by (apply pow_R1_Rle; exact Q). pose proof (exp_pos (y * ln x)) as E1. pose proof (exp_pos (y * ln z)) as E2. fold (Rpower x y) in E1. fold (Rpower z y) in E2.
  assert (L1 : Rpower x y <= Rpower z y) by (apply Rle_Rpower_l; lra).
  assert (L2 : Rpower z y <= q ^ n * Rpower x y).
  { apply Rle_trans with (Rpower (q * x) y); [apply Rle_Rpower_l; lra|]. rewrite <- Rpower_mult_distr by lra.
    apply Rmult_le_compat_r; [lra|]. rewrite <- Rpower_pow by lra. apply Rle_Rpower; lra. }
  repeat split; try assumption; nra.
Qed.
Lemma ln_upper t : 0 < t -> ln t <= t - 1.
Proof. intros T. pose proof (exp_ineq1_le (ln t)) as H. rewrite exp_ln in H by exact T. lra. Qed.
Lemma ln_le_mono a b : 0 < a -> a <= b -> ln a <= ln b.
Proof. intros A [L|<-]; [left; now apply ln_increasing|lra]. Qed.
Lemma ln_ratio q x z : 0 < x -> x <= z -> z <= q * x -> 0 <= ln z - ln x <= q - 1.
Proof.
  intros X XZ ZQ. split; [pose proof (ln_le_mono x z X XZ); lra|]. assert (Q : 1 <= q) by nra.
  pose proof (ln_le_mono z (q * x) ltac:(lra) ZQ) as H. rewrite ln_mult in H by lra. pose proof (ln_upper q ltac:(lra)). lra.
Qed.
(** ln(1 + q y) <= q ln(1 + y) *)
Lemma ln_concave q y : 1 <= q -> 0 < y -> ln (1 + q * y) <= q * ln (1 + y).
Proof.
  intros Q Y. assert (IQ : 0 < / q <= 1) by (split; [apply Rinv_0_lt_compat; lra|rewrite <- Rinv_1; apply Rinv_le_contravar; lra]).
  pose proof (bernoulli (/ q) (1 + q * y) ltac:(lra) ltac:(nra)) as B. replace (1 + / q * (1 + q * y - 1)) with (1 + y) in B by (field; lra).
  apply ln_le_mono in B; [|apply exp_pos]. rewrite ln_exp in B. apply (Rmult_le_reg_l (/ q)); [lra|]. replace (/ q * (q * ln (1 + y))) with (ln (1 + y)) by (field; lra). exact B.
Qed.
Lemma exp_third_power x : 0 <= x -> exp (- (3 * x)) <= / (1 + x) ^ 3.
Proof.
  intros X. replace (- (3 * x)) with (- (x + (x + x))) by ring. rewrite exp_Ropp. apply Rinv_le_contravar; [apply pow_lt; lra|]. rewrite !exp_plus. pose proof (exp_ineq1_le x) as E.
  cbn [pow]. apply Rmult_le_compat; try nra.
Qed.
