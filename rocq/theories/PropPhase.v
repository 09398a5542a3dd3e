(** * C56: the phase shifts are computed in finitely many steps *)
From Coq Require Import ZArith Reals List Bool Lra Lia Znumtheory.
From Verif Require Import Num NumR Structures Calculations EnergyOutProofs PropSrim Lindhard TrigR PropLindhard PropHyperg.
Import ListNotations.
Local Open Scope R_scope.

(** ** The series inside the nucleus *)
(** the coefficients a_n, b_n of the two components: g is the coupling Z * fine_structure with its sign *)
Record interior (g rho gz K : R) (a b : nat -> R) : Prop := {
  in_b0 : b O = 1;
  in_a0 : a O = (1 + 2 * K) / (rho - gz);
  in_a1 : a 1%nat = (gz + rho) / 2;
  in_b : forall n, (1 <= n)%nat -> b n = ((rho - gz) * a n + g * a (pred n) / 2) / (2 * INR n + 2 * K + 1);
  in_a : forall n, (1 <= n)%nat -> a (S n) = ((gz + rho) * b n - g * b (pred n) / 2) / (2 * INR n + 2)
}.
(** the coefficients exist *)
Fixpoint coeffs (g rho gz K : R) (n : nat) : R * R * R :=   (* a (n+1), a n, b n *)
  match n with
  | O => ((gz + rho) / 2, (1 + 2 * K) / (rho - gz), 1)
  | S m => let '(an, anm1, bnm1) := coeffs g rho gz K m in
           let bn := ((rho - gz) * an + g * anm1 / 2) / (2 * INR n + 2 * K + 1) in
           (((gz + rho) * bn - g * bnm1 / 2) / (2 * INR n + 2), an, bn)
  end.
Lemma interior_exists g rho gz K : exists a b, interior g rho gz K a b.
Proof.
  exists (fun n => snd (fst (coeffs g rho gz K n))), (fun n => snd (coeffs g rho gz K n)).
  assert (SH : forall n, snd (fst (coeffs g rho gz K (S n))) = fst (fst (coeffs g rho gz K n))).
  { intros n. cbn [coeffs]. destruct (coeffs g rho gz K n) as [[u v] w]. reflexivity. }
  split.
  - reflexivity.
  - reflexivity.
  - reflexivity.
  - intros [|n] H; [lia|]. cbn [pred]. cbn [coeffs]. destruct (coeffs g rho gz K n) as [[u v] w]. reflexivity.
  - intros [|n] H; [lia|]. rewrite SH. cbn [pred]. cbn [coeffs]. destruct (coeffs g rho gz K n) as [[u v] w]. reflexivity.
Qed.

Definition negligible (a : nat -> R) (m : nat) : Prop := Rabs (a m) <= 1 / 1000000 * Rabs (sum_f_R0 a m).
Definition first_negligible (a : nat -> R) (m : nat) : Prop := negligible a m /\ forall i, (i < m)%nat -> ~ negligible a i.

Lemma quot_cmp x y e : y <> 0 -> Rabs (x / y) <= e <-> Rabs x <= e * Rabs y.
Proof.
  intros Y. assert (P : 0 < Rabs y) by (now apply Rabs_pos_lt). unfold Rdiv. rewrite Rabs_mult, Rabs_inv. split; intros H.
  - apply Rmult_le_compat_r with (r := Rabs y) in H; [|lra]. rewrite Rmult_assoc, Rinv_l, Rmult_1_r in H by lra. exact H.
  - apply Rmult_le_reg_r with (Rabs y); [exact P|]. rewrite Rmult_assoc, Rinv_l, Rmult_1_r by lra. exact H.
Qed.
Lemma lit6' : Rlit 1e-6 = 1 / 1000000. Proof. dec_norm; lra. Qed.

Lemma inner_first z1 rho gz K a b : interior (fine_structure * z1) rho gz K a b -> (forall m, sum_f_R0 a m <> 0) ->
  forall fuel n v, inner_loop fuel rho gz z1 K (a (S n)) (a n) (b n) (sum_f_R0 a n) (sum_f_R0 b n) (INR n + 1) = Some v <->
  exists m, (n <= m <= n + fuel)%nat /\ negligible a m /\ (forall i, (n <= i < m)%nat -> ~ negligible a i) /\ v = (sum_f_R0 a m, sum_f_R0 b m).
Proof.
  intros I NZ. induction fuel as [|fuel IH]; intros n v; cbn [inner_loop]; numR; lits; rewrite lit6'.
  - destruct (Rltb_spec (1 / 1000000) (Rabs (a n / sum_f_R0 a n))) as [C|C].
    + split; [discriminate|]. intros (m & M & NG & _). assert (m = n) as -> by lia. apply (quot_cmp _ _ _ (NZ n)) in NG. lra.
    + split.
      * intros E. injection E as <-. exists n. split; [lia|]. split; [apply (quot_cmp _ _ _ (NZ n)); lra|]. split; [intros; lia|reflexivity].
      * intros (m & M & _ & _ & ->). assert (m = n) as -> by lia. reflexivity.
  - destruct (Rltb_spec (1 / 1000000) (Rabs (a n / sum_f_R0 a n))) as [C|C].
    + assert (NN : ~ negligible a n) by (intros NG; apply (quot_cmp _ _ _ (NZ n)) in NG; lra).
      pose proof (in_b _ _ _ _ _ _ I (S n) ltac:(lia)) as EB. pose proof (in_a _ _ _ _ _ _ I (S n) ltac:(lia)) as EA. cbn [pred] in EA, EB. rewrite S_INR in EA, EB.
      rewrite <- EB, <- EA. rewrite <- (tech5 a n), <- (tech5 b n), <- S_INR. rewrite (IH (S n) v). split.
      * intros (m & M & NG & NF & E). exists m. split; [lia|]. split; [exact NG|]. split; [|exact E]. intros i I1. destruct (Nat.eq_dec i n) as [->|NE]; [exact NN|apply NF; lia].
      * intros (m & M & NG & NF & E). destruct (Nat.eq_dec m n) as [->|NE]; [contradiction|]. exists m. split; [lia|]. split; [exact NG|]. split; [|exact E]. intros i I1. apply NF. lia.
    + assert (NN : negligible a n) by (apply (quot_cmp _ _ _ (NZ n)); lra). split.
      * intros E. injection E as <-. exists n. split; [lia|]. split; [exact NN|]. split; [intros; lia|reflexivity].
      * intros (m & M & _ & NF & ->). destruct (Nat.eq_dec m n) as [->|NE]; [reflexivity|]. exfalso. apply (NF n); [lia|exact NN].
Qed.

(** the loop returns the two partial sums up to the first negligible coefficient *)
Theorem C56_interior z1 rho gz K a b fuel v : interior (fine_structure * z1) rho gz K a b -> (forall m, sum_f_R0 a m <> 0) ->
  inner_loop fuel rho gz z1 K (a 1%nat) (a O) (b O) (a O) (b O) 1 = Some v <->
  exists m, (m <= fuel)%nat /\ first_negligible a m /\ v = (sum_f_R0 a m, sum_f_R0 b m).
Proof.
  intros I NZ. pose proof (inner_first z1 rho gz K a b I NZ fuel 0 v) as H. cbn [INR sum_f_R0] in H. rewrite Rplus_0_l in H. rewrite H. split.
  - intros (m & M & NG & NF & E). exists m. split; [lia|]. split; [split; [exact NG|intros i L; apply NF; lia]|exact E].
  - intros (m & M & (NG & NF) & E). exists m. split; [lia|]. split; [exact NG|]. split; [intros i L; apply NF; lia|exact E].
Qed.
Print Assumptions C56_interior.

(** ** The coefficients decrease geometrically *)
Lemma interior_decay g rho gz K a b : 0 <= K -> interior g rho gz K a b ->
  exists N D, 0 <= D /\ forall n, (N <= n)%nat -> Rabs (a n) * 2 ^ n <= D /\ Rabs (b n) * 2 ^ n <= D.
Proof.
  intros HK I. set (k := Rabs (rho - gz) + Rabs (gz + rho) + Rabs g). assert (K0 : 0 <= k) by (unfold k; pose proof (Rabs_pos (rho - gz)); pose proof (Rabs_pos (gz + rho)); pose proof (Rabs_pos g); lra).
  destruct (INR_unbounded (6 * k + 1)) as [N HN]. exists N.
  set (D := (Rabs (a N) + Rabs (a (S N)) + Rabs (b N)) * 2 ^ S N). exists D.
  assert (P2 : forall n, 0 < 2 ^ n) by (intros; apply pow_lt; lra).
  assert (DN : 0 <= D) by (unfold D; apply Rmult_le_pos; [pose proof (Rabs_pos (a N)); pose proof (Rabs_pos (a (S N))); pose proof (Rabs_pos (b N)); lra|left; apply P2]).
  split; [exact DN|].
  assert (ST : forall n, (N <= n)%nat -> Rabs (a n) * 2 ^ n <= D /\ Rabs (b n) * 2 ^ n <= D /\ Rabs (a (S n)) * 2 ^ S n <= D).
  { intros n H. induction H as [|n H (IA & IB & IA1)].
    - unfold D. pose proof (P2 N) as Q. cbn [pow]. pose proof (Rabs_pos (a N)). pose proof (Rabs_pos (a (S N))). pose proof (Rabs_pos (b N)). repeat split; nra.
    - pose proof (P2 n) as Q. cbn [pow] in *. set (p := 2 ^ n) in *.
      assert (NB : 6 * k + 1 < INR (S n)) by (apply Rlt_le_trans with (INR N); [exact HN|apply le_INR; lia]).
      pose proof (in_b _ _ _ _ _ _ I (S n) ltac:(lia)) as EB. pose proof (in_a _ _ _ _ _ _ I (S n) ltac:(lia)) as EA. cbn [pred] in EA, EB. set (x := INR (S n)) in *.
      assert (TRI : forall u v c d, Rabs c <= k -> Rabs d <= k -> forall y, 6 * k < y -> 0 < y -> Rabs ((c * u + d * v / 2) / y) <= (Rabs u + Rabs v) / 6).
      { intros u v c d C1 D1 y Y Y0. unfold Rdiv at 1. rewrite Rabs_mult, (Rabs_right (/ y)) by (apply Rle_ge; left; apply Rinv_0_lt_compat; exact Y0).
        apply Rmult_le_reg_r with y; [exact Y0|]. rewrite Rmult_assoc, Rinv_l, Rmult_1_r by lra.
        eapply Rle_trans; [apply Rabs_triang|]. unfold Rdiv. rewrite !Rabs_mult, (Rabs_right (/ 2)) by lra.
        pose proof (Rabs_pos u). pose proof (Rabs_pos v). pose proof (Rabs_pos c). pose proof (Rabs_pos d).
        assert (Rabs c * Rabs u <= k * Rabs u) by (apply Rmult_le_compat_r; lra). assert (Rabs d * Rabs v <= k * Rabs v) by (apply Rmult_le_compat_r; lra).
        assert (6 * k * (Rabs u + Rabs v) <= y * (Rabs u + Rabs v)) by (apply Rmult_le_compat_r; lra).
        assert (0 <= k * Rabs v) by (apply Rmult_le_pos; lra). lra. }
      assert (KP : Rabs (rho - gz) <= k /\ Rabs (gz + rho) <= k /\ Rabs g <= k /\ Rabs (- g) <= k) by (unfold k; rewrite Rabs_Ropp; pose proof (Rabs_pos (rho - gz)); pose proof (Rabs_pos (gz + rho)); pose proof (Rabs_pos g); repeat split; lra).
      destruct KP as (K1 & K2 & K3 & K4).
      assert (BB : Rabs (b (S n)) <= (Rabs (a (S n)) + Rabs (a n)) / 6) by (rewrite EB; apply TRI; lra).
      assert (AA : Rabs (a (S (S n))) <= (Rabs (b (S n)) + Rabs (b n)) / 6).
      { rewrite EA. replace ((gz + rho) * b (S n) - g * b n / 2) with ((gz + rho) * b (S n) + - g * b n / 2) by (unfold Rdiv; ring). apply TRI; lra. }
      assert (B2 : Rabs (b (S n)) * (2 * p) <= D).
      { apply Rle_trans with ((Rabs (a (S n)) + Rabs (a n)) / 6 * (2 * p)); [apply Rmult_le_compat_r; lra|]. lra. }
      split; [exact IA1|]. split; [exact B2|].
      apply Rle_trans with ((Rabs (b (S n)) + Rabs (b n)) / 6 * (2 * (2 * p))); [apply Rmult_le_compat_r; lra|]. lra. }
  intros n H. destruct (ST n H) as (A & B & _). auto.
Qed.

(** sums of such sequences converge *)
Lemma geometric_cv (u : nat -> R) N D : 0 <= D -> (forall n, (N <= n)%nat -> Rabs (u n) * 2 ^ n <= D) -> exists l, Un_cv (sum_f_R0 u) l.
Proof.
  intros HD H. destruct (R_complete (sum_f_R0 u)) as [l L]; [|exists l; exact L].
  assert (P2 : forall n, 0 < 2 ^ n) by (intros; apply pow_lt; lra).
  assert (B : forall n j, (N <= n)%nat -> Rabs (sum_f_R0 u (n + j) - sum_f_R0 u n) <= D / 2 ^ n * (1 - / 2 ^ j)).
  { intros n j NN. induction j as [|j IH].
    - rewrite Nat.add_0_r. unfold Rminus at 1. rewrite Rplus_opp_r, Rabs_R0. cbn [pow]. lra.
    - rewrite Nat.add_succ_r, tech5. replace (sum_f_R0 u (n + j) + u (S (n + j)) - sum_f_R0 u n) with (sum_f_R0 u (n + j) - sum_f_R0 u n + u (S (n + j))) by ring.
      eapply Rle_trans; [apply Rabs_triang|]. specialize (H (S (n + j)) ltac:(lia)).
      assert (Q : Rabs (u (S (n + j))) <= D / 2 ^ n * (/ 2 ^ j / 2)).
      { apply Rmult_le_reg_r with (2 ^ S (n + j)); [apply P2|]. eapply Rle_trans; [exact H|]. cbn [pow]. rewrite pow_add. right. pose proof (P2 n). pose proof (P2 j). field. lra. }
      cbn [pow]. rewrite Rinv_mult. lra. }
  intros eps E. destruct (INR_unbounded (2 * D / eps)) as [M HM]. exists (N + M)%nat.
  assert (S1 : forall n m, (n >= N + M)%nat -> (n <= m)%nat -> Rabs (sum_f_R0 u m - sum_f_R0 u n) < eps).
  { intros n m G1 G2. replace m with (n + (m - n))%nat by lia. eapply Rle_lt_trans; [apply B; lia|].
    assert (PN : D / 2 ^ n < eps).
    { apply Rmult_lt_reg_r with (2 ^ n); [apply P2|]. unfold Rdiv. rewrite Rmult_assoc, Rinv_l, Rmult_1_r by (apply Rgt_not_eq, P2).
      pose proof (pow2_ge n) as Q. assert (MN : INR M <= INR n) by (apply le_INR; lia).
      apply Rmult_lt_compat_r with (r := eps) in HM; [|exact E]. unfold Rdiv in HM. rewrite Rmult_assoc, Rinv_l, Rmult_1_r in HM by lra.
      assert (eps * (INR M + 1) <= eps * 2 ^ n) by (apply Rmult_le_compat_l; lra). lra. }
    pose proof (Rinv_0_lt_compat _ (P2 (m - n)%nat)). assert (0 <= D / 2 ^ n) by (apply Rmult_le_pos; [exact HD|left; apply Rinv_0_lt_compat, P2]).
    apply Rle_lt_trans with (D / 2 ^ n * 1); [apply Rmult_le_compat_l; lra|lra]. }
  intros n m G1 G2. unfold R_dist. destruct (Nat.le_ge_cases n m) as [LE|GE].
  - rewrite Rabs_minus_sym. apply S1; lia.
  - apply S1; lia.
Qed.

Theorem C56_interior_converges g rho gz K a b : 0 <= K -> interior g rho gz K a b ->
  exists la lb, Un_cv (sum_f_R0 a) la /\ Un_cv (sum_f_R0 b) lb.
Proof.
  intros HK I. destruct (interior_decay g rho gz K a b HK I) as (N & D & D0 & H).
  destruct (geometric_cv a N D D0 (fun n L => proj1 (H n L))) as [la LA]. destruct (geometric_cv b N D D0 (fun n L => proj2 (H n L))) as [lb LB]. exists la, lb. auto.
Qed.
Print Assumptions C56_interior_converges.

Lemma negligible_exists g rho gz K a b l : 0 <= K -> interior g rho gz K a b -> Un_cv (sum_f_R0 a) l -> l <> 0 -> exists m, first_negligible a m.
Proof.
  intros HK I CV NL. destruct (interior_decay g rho gz K a b HK I) as (N & D & D0 & H).
  assert (PL : 0 < Rabs l) by (now apply Rabs_pos_lt). destruct (CV (Rabs l / 2) ltac:(lra)) as [N1 H1].
  destruct (INR_unbounded (D / (1 / 1000000 * (Rabs l / 2)))) as [N2 H2]. set (n := (N + N1 + N2)%nat).
  assert (P2 : 0 < 2 ^ n) by (apply pow_lt; lra).
  assert (SM : negligible a n).
  { unfold negligible. specialize (H1 n ltac:(unfold n; lia)). unfold R_dist in H1. specialize (H n ltac:(unfold n; lia)). destruct H as [HA _].
    assert (HS : Rabs l / 2 <= Rabs (sum_f_R0 a n)).
    { pose proof (Rabs_triang (sum_f_R0 a n) (l - sum_f_R0 a n)) as T. replace (sum_f_R0 a n + (l - sum_f_R0 a n)) with l in T by ring. rewrite (Rabs_minus_sym l) in T. lra. }
    set (e := 1 / 1000000 * (Rabs l / 2)) in *. assert (E0 : 0 < e) by (unfold e; lra).
    apply Rmult_lt_compat_r with (r := e) in H2; [|exact E0]. unfold Rdiv in H2. rewrite Rmult_assoc, Rinv_l, Rmult_1_r in H2 by lra.
    pose proof (pow2_ge n) as Q. assert (INR N2 <= INR n) by (apply le_INR; unfold n; lia).
    assert (INR N2 * e <= 2 ^ n * e) by (apply Rmult_le_compat_r; lra).
    assert (Rabs (a n) <= e). { apply Rmult_le_reg_r with (2 ^ n); [exact P2|]. lra. }
    unfold e in *. lra. }
  destruct (least (negligible a)) with (n := n) as (m & _ & M1 & M2); [|exact SM|exists m; split; assumption].
  intros i. unfold negligible. destruct (Rle_dec (Rabs (a i)) (1 / 1000000 * Rabs (sum_f_R0 a i))); tauto.
Qed.

(** the loop ends unless the series has the value 0 (a node of the wave function at the surface) *)
Theorem C56_interior_terminates z1 rho gz K a b l : 0 <= K -> interior (fine_structure * z1) rho gz K a b -> (forall m, sum_f_R0 a m <> 0) ->
  Un_cv (sum_f_R0 a) l -> l <> 0 ->
  exists m, first_negligible a m /\ forall fuel, (m <= fuel)%nat ->
    inner_loop fuel rho gz z1 K (a 1%nat) (a O) (b O) (a O) (b O) 1 = Some (sum_f_R0 a m, sum_f_R0 b m).
Proof.
  intros HK I NZ CV NL. destruct (negligible_exists _ _ _ _ _ _ _ HK I CV NL) as [m M]. exists m. split; [exact M|]. intros fuel F.
  apply (C56_interior z1 rho gz K a b fuel _ I NZ). exists m. auto.
Qed.
Print Assumptions C56_interior_terminates.

(** ** The series is not zero for a coupling and momentum that are not too large *)
Section Bound.
  Variables g rho gz K : R.
  Variables a b : nat -> R.
  Hypothesis I : interior g rho gz K a b.
  Hypothesis K1 : 1 <= K.
  Let P := Rabs (rho - gz).
  Let Q := Rabs (gz + rho).
  Let w := Rabs g / 2.
  Hypothesis P0 : 0 < P.
  Hypothesis WP : 3 * w <= P.
  Hypothesis WQ : 3 * w <= Q.
  Hypothesis PQ : P * Q <= 9 / 4.
  Let A n := P * Rabs (a n) / (1 + 2 * K).
  Let B n := Rabs (b n).

  Lemma w_nonneg : 0 <= w. Proof. unfold w. pose proof (Rabs_pos g). lra. Qed.
  Lemma A_nonneg n : 0 <= A n.
  Proof. unfold A. apply Rmult_le_pos; [apply Rmult_le_pos; [lra|apply Rabs_pos]|left; apply Rinv_0_lt_compat; lra]. Qed.
  Lemma B_nonneg n : 0 <= B n. Proof. apply Rabs_pos. Qed.
  Lemma abs_quot x y : 0 < y -> Rabs (x / y) = Rabs x / y.
  Proof. intros Y. unfold Rdiv. rewrite Rabs_mult, (Rabs_right (/ y)); [reflexivity|]. apply Rle_ge. left. now apply Rinv_0_lt_compat. Qed.
  Lemma A_0 : A 0 = 1.
  Proof.
    unfold A. rewrite (in_a0 _ _ _ _ _ _ I). unfold Rdiv at 2. rewrite Rabs_mult, Rabs_inv, (Rabs_right (1 + 2 * K)) by lra. fold P. field. lra.
  Qed.
  Lemma A_1 : A 1 <= 3 / 8.
  Proof.
    unfold A. rewrite (in_a1 _ _ _ _ _ _ I), abs_quot by lra. fold Q. apply Rmult_le_reg_r with (1 + 2 * K); [lra|]. replace (P * (Q / 2) / (1 + 2 * K) * (1 + 2 * K)) with (P * Q / 2) by (field; lra). lra.
  Qed.
  Lemma B_step n : B (S n) <= A (S n) + A n / 3.
  Proof.
    unfold B, A. rewrite (in_b _ _ _ _ _ _ I) by lia. cbn [pred]. set (x := INR (S n)). assert (X : 0 <= x) by apply pos_INR. rewrite abs_quot by lra.
    assert (N : Rabs ((rho - gz) * a (S n) + g * a n / 2) <= P * Rabs (a (S n)) + P * Rabs (a n) / 3).
    { eapply Rle_trans; [apply Rabs_triang|]. rewrite Rabs_mult, abs_quot, Rabs_mult by lra. fold P. pose proof (Rabs_pos (a n)). unfold w in *. assert (Rabs g * Rabs (a n) <= 2 * P / 3 * Rabs (a n)) by (apply Rmult_le_compat_r; lra). lra. }
    pose proof (Rabs_pos (a n)) as Pn. pose proof (Rabs_pos (a (S n))) as Pn1. assert (0 <= P * Rabs (a n)) by (apply Rmult_le_pos; lra). assert (0 <= P * Rabs (a (S n))) by (apply Rmult_le_pos; lra).
    apply Rle_trans with ((P * Rabs (a (S n)) + P * Rabs (a n) / 3) / (2 * x + 2 * K + 1)); [apply Rmult_le_compat_r; [left; apply Rinv_0_lt_compat; lra|exact N]|].
    apply Rle_trans with ((P * Rabs (a (S n)) + P * Rabs (a n) / 3) / (1 + 2 * K)); [apply Rmult_le_compat_l; [lra|apply Rinv_le_contravar; lra]|]. right. field. lra.
  Qed.
  Lemma A_step n : A (S (S n)) <= 3 / 4 * (B (S n) + B n / 3) / (2 * INR (S n) + 2).
  Proof.
    unfold B, A. rewrite (in_a _ _ _ _ _ _ I) by lia. cbn [pred]. set (x := INR (S n)). assert (X : 0 <= x) by apply pos_INR. rewrite abs_quot by lra.
    assert (N : Rabs ((gz + rho) * b (S n) - g * b n / 2) <= Q * Rabs (b (S n)) + Q * Rabs (b n) / 3).
    { unfold Rminus. eapply Rle_trans; [apply Rabs_triang|]. rewrite Rabs_Ropp, Rabs_mult, abs_quot, Rabs_mult by lra. fold Q. pose proof (Rabs_pos (b n)). unfold w in *. assert (Rabs g * Rabs (b n) <= 2 * Q / 3 * Rabs (b n)) by (apply Rmult_le_compat_r; lra). lra. }
    pose proof (Rabs_pos (b n)). pose proof (Rabs_pos (b (S n))).
    assert (M : P * Rabs ((gz + rho) * b (S n) - g * b n / 2) <= 9 / 4 * (Rabs (b (S n)) + Rabs (b n) / 3)).
    { apply Rle_trans with (P * (Q * Rabs (b (S n)) + Q * Rabs (b n) / 3)); [apply Rmult_le_compat_l; lra|].
      replace (P * (Q * Rabs (b (S n)) + Q * Rabs (b n) / 3)) with (P * Q * (Rabs (b (S n)) + Rabs (b n) / 3)) by field. apply Rmult_le_compat_r; lra. }
    set (t := Rabs ((gz + rho) * b (S n) - g * b n / 2)) in *. replace (P * (t / (2 * x + 2)) / (1 + 2 * K)) with (P * t / (1 + 2 * K) / (2 * x + 2)) by (field; lra).
    apply Rmult_le_compat_r; [left; apply Rinv_0_lt_compat; lra|]. apply Rle_trans with (9 / 4 * (Rabs (b (S n)) + Rabs (b n) / 3) / (1 + 2 * K)); [apply Rmult_le_compat_r; [left; apply Rinv_0_lt_compat; lra|exact M]|].
    apply Rmult_le_reg_r with (1 + 2 * K); [lra|]. set (y := Rabs (b (S n)) + Rabs (b n) / 3) in *. replace (9 / 4 * y / (1 + 2 * K) * (1 + 2 * K)) with (9 / 4 * y) by (field; lra). assert (0 <= y) by (unfold y; lra). nra.
  Qed.

  Lemma first_bounds : A 1 <= 3 / 8 /\ A 2 <= 2 / 10 /\ B 2 <= 13 / 10 / 4 /\ A 3 <= 6 / 10 / 8 /\ B 3 <= 13 / 10 / 8.
  Proof.
    assert (B0 : B 0 = 1) by (unfold B; rewrite (in_b0 _ _ _ _ _ _ I); apply Rabs_R1).
    pose proof A_0 as A0. pose proof A_1 as A1. pose proof (B_step 0) as B1. pose proof (A_step 0) as A2. pose proof (B_step 1) as B2. pose proof (A_step 1) as A3. pose proof (B_step 2) as B3.
    change (INR 1) with 1 in A2. change (INR 2) with (1 + 1) in A3. rewrite B0 in A2. replace (2 * 1 + 2) with 4 in A2 by ring. replace (2 * (1 + 1) + 2) with 6 in A3 by ring.
    repeat split; lra.
  Qed.
  Lemma tail_bounds n : A (3 + n) * 2 ^ (3 + n) <= 6 / 10 /\ B (3 + n) * 2 ^ (3 + n) <= 13 / 10 /\ B (2 + n) * 2 ^ (2 + n) <= 13 / 10.
  Proof.
    destruct first_bounds as (_ & _ & F2 & F3 & G3). induction n as [|n (IA & IB & IC)].
    - cbn [Nat.add pow]. repeat split; lra.
    - replace (3 + S n)%nat with (S (3 + n)) by lia. replace (2 + S n)%nat with (3 + n)%nat by lia. pose proof (pow_lt 2 n ltac:(lra)) as PP.
      pose proof (A_step (2 + n)) as SA. pose proof (B_step (3 + n)) as SB. replace (S (S (2 + n))) with (S (3 + n)) in SA by lia. replace (S (2 + n)) with (3 + n)%nat in SA by lia.
      assert (X : 3 <= INR (3 + n)) by (change 3 with (IZR 3); rewrite INR_IZR_INZ; apply IZR_le; lia).
      pose proof (B_nonneg (3 + n)). pose proof (B_nonneg (2 + n)).
      assert (SA' : A (S (3 + n)) <= 3 / 4 * (B (3 + n) + B (2 + n) / 3) / 8).
      { eapply Rle_trans; [exact SA|]. apply Rmult_le_compat_l; [lra|]. apply Rinv_le_contravar; lra. }
      clear SA. cbn [Nat.add pow] in *. set (p := 2 ^ n) in *. set (a4 := A (S (S (S (S n))))) in *. set (a3 := A (S (S (S n)))) in *. set (b4 := B (S (S (S (S n))))) in *. set (b3 := B (S (S (S n)))) in *. set (b2 := B (S (S n))) in *.
      assert (EA : a4 * (2 * (2 * (2 * (2 * p)))) <= 6 / 10).
      { apply Rle_trans with (3 / 4 * (b3 + b2 / 3) / 8 * (2 * (2 * (2 * (2 * p))))); [apply Rmult_le_compat_r; lra|]. lra. }
      split; [exact EA|]. split; [|exact IB].
      apply Rle_trans with ((a4 + a3 / 3) * (2 * (2 * (2 * (2 * p))))); [apply Rmult_le_compat_r; lra|]. lra.
  Qed.
  Lemma sum_bound m : Rabs (sum_f_R0 a m - a O) <= 3 / 4 * Rabs (a O).
  Proof.
    assert (KE : forall n, Rabs (a n) = A n * Rabs (a O)).
    { intros n. unfold A. rewrite (in_a0 _ _ _ _ _ _ I). unfold Rdiv at 2. rewrite (Rabs_mult (1 + 2 * K)), Rabs_inv, (Rabs_right (1 + 2 * K)) by lra. fold P. field. lra. }
    pose proof (Rabs_pos (a O)) as PA.
    assert (S2 : forall n, Rabs (sum_f_R0 a (2 + n) - a O) <= (3 / 4 - 6 / 10 / 2 ^ (2 + n)) * Rabs (a O)).
    { destruct first_bounds as (F1 & F2 & _). induction n as [|n IH].
      - cbn [Nat.add sum_f_R0 pow]. replace (a 0%nat + a 1%nat + a 2%nat - a 0%nat) with (a 1%nat + a 2%nat) by ring. eapply Rle_trans; [apply Rabs_triang|]. rewrite (KE 1%nat), (KE 2%nat).
        rewrite <- Rmult_plus_distr_r. apply Rmult_le_compat_r; [exact PA|]. lra.
      - replace (2 + S n)%nat with (S (2 + n)) by lia. rewrite tech5. replace (sum_f_R0 a (2 + n) + a (S (2 + n)) - a 0%nat) with (sum_f_R0 a (2 + n) - a 0%nat + a (S (2 + n))) by ring.
        eapply Rle_trans; [apply Rabs_triang|]. rewrite (KE (S (2 + n))). destruct (tail_bounds n) as (T & _ & _). replace (S (2 + n)) with (3 + n)%nat by lia.
        pose proof (pow_lt 2 n ltac:(lra)) as PP. assert (T' : A (3 + n) <= 6 / 10 / 2 ^ (3 + n)).
        { apply Rmult_le_reg_r with (2 ^ (3 + n)); [apply pow_lt; lra|]. unfold Rdiv. rewrite Rmult_assoc, Rinv_l, Rmult_1_r by (apply Rgt_not_eq, pow_lt; lra). exact T. }
        apply Rle_trans with ((3 / 4 - 6 / 10 / 2 ^ (2 + n)) * Rabs (a 0%nat) + 6 / 10 / 2 ^ (3 + n) * Rabs (a 0%nat)); [apply Rplus_le_compat; [exact IH|apply Rmult_le_compat_r; assumption]|].
        rewrite <- Rmult_plus_distr_r. apply Rmult_le_compat_r; [exact PA|]. cbn [Nat.add pow]. right. field. lra. }
    destruct m as [|[|m]].
    - cbn [sum_f_R0]. unfold Rminus. rewrite Rplus_opp_r, Rabs_R0. lra.
    - cbn [sum_f_R0]. replace (a 0%nat + a 1%nat - a 0%nat) with (a 1%nat) by ring. rewrite (KE 1%nat). destruct first_bounds as (F1 & _). apply Rmult_le_compat_r; lra.
    - eapply Rle_trans; [exact (S2 m)|]. apply Rmult_le_compat_r; [exact PA|]. assert (0 < 6 / 10 / 2 ^ (2 + m)) by (apply pos_quot; [lra|apply pow_lt; lra]). lra.
  Qed.
  Lemma sum_lower m : 0 < Rabs (a O) / 4 <= Rabs (sum_f_R0 a m).
  Proof.
    assert (PA : 0 < Rabs (a O)). { rewrite (in_a0 _ _ _ _ _ _ I). unfold Rdiv. rewrite Rabs_mult, Rabs_inv, (Rabs_right (1 + 2 * K)) by lra. apply Rmult_lt_0_compat; [lra|apply Rinv_0_lt_compat; exact P0]. }
    split; [lra|]. pose proof (sum_bound m) as SB. pose proof (Rabs_triang (sum_f_R0 a m) (a O - sum_f_R0 a m)) as T. replace (sum_f_R0 a m + (a O - sum_f_R0 a m)) with (a O) in T by ring. rewrite (Rabs_minus_sym (a O)) in T. lra.
  Qed.
  Lemma inner_defined z1 : g = fine_structure * z1 -> exists m v, forall fuel, (m <= fuel)%nat -> inner_loop fuel rho gz z1 K (a 1%nat) (a O) (b O) (a O) (b O) 1 = Some v.
  Proof.
    intros E. destruct (C56_interior_converges g rho gz K a b ltac:(lra) I) as (l & _ & CV & _).
    destruct (C56_interior_terminates z1 rho gz K a b l) as (m & _ & H); try assumption; try lra.
    - rewrite <- E. exact I.
    - intros m Z0. pose proof (sum_lower m) as L. rewrite Z0, Rabs_R0 in L. lra.
    - intros L0. subst l. pose proof (sum_lower 0) as L1. destruct (CV (Rabs (a O) / 4) ltac:(lra)) as [N H]. specialize (H N (Nat.le_refl N)). unfold R_dist in H. rewrite Rminus_0_r in H. pose proof (sum_lower N). lra.
    - exists m, (sum_f_R0 a m, sum_f_R0 b m). exact H.
  Qed.
End Bound.

(** ** No pole: twice sqrt(k^2 - (Z alpha)^2) is never an integer *)
Definition coupling (z : Z) : R := IZR z / (137035999139 / 10 ^ 9).
Lemma fine_R : fine_structure (F:=R) = 10 ^ 9 / 137035999139.
Proof. unfold fine_structure. numR. lits. dec_norm. field. Qed.
Lemma coupling_R z : fine_structure * IZR z = coupling z.
Proof. rewrite fine_R. unfold coupling. field. Qed.
Lemma no_integer (z k n : Z) : (0 < z < 137035999139)%Z -> 4 * (IZR k * IZR k - coupling z * coupling z) <> IZR n * IZR n.
Proof.
  intros Z0 E.
  assert (ZE : (4 * 10 ^ 18 * (z * z) = (4 * (k * k) - n * n) * (137035999139 * 137035999139))%Z).
  { apply eq_IZR. rewrite !mult_IZR, minus_IZR, !mult_IZR. change (IZR (10 ^ 18)) with (IZR 1000000000000000000).
    unfold coupling in E.
    assert (E2 : IZR n * IZR n = 4 * (IZR k * IZR k) - 4 * (IZR z * IZR z) * 1000000000000000000 / (137035999139 * 137035999139)) by (rewrite <- E; field).
    rewrite E2. field. }
  assert (DV : (137035999139 * 137035999139 | z * z)%Z).
  { apply Gauss with (4 * 10 ^ 18)%Z; [exists (4 * (k * k) - n * n)%Z; exact ZE|]. apply Zgcd_1_rel_prime. vm_compute. reflexivity. }
  apply Z.divide_pos_le in DV; nia.
Qed.
Definition sk_of (z k : Z) : R := sqrt (IZR k * IZR k - coupling z * coupling z).
Lemma no_pole_minus (z k : Z) : (0 < z < 137035999139)%Z -> 0 < IZR k * IZR k - coupling z * coupling z -> no_pole (re (-2 * sk_of z k + 1)).
Proof.
  intros Z0 P n E. apply (f_equal fst) in E. unfold cadd, re in E. revert E. numR. cbn [fst]. intros E.
  apply (no_integer z k (Z.of_nat n + 1) Z0). rewrite plus_IZR, <- INR_IZR_INZ.
  assert (S2 : 2 * sk_of z k = INR n + 1) by lra. rewrite <- S2. unfold sk_of. transitivity (4 * (sqrt (IZR k * IZR k - coupling z * coupling z) * sqrt (IZR k * IZR k - coupling z * coupling z))); [|ring].
  rewrite sqrt_sqrt by lra. reflexivity.
Qed.

(** ** Phase shifts *)
Lemma hyperg_defined (a b z : C) : no_pole b -> exists n v, forall fuel, (n <= fuel)%nat -> hyperg fuel a b z = Some v.
Proof. intros NP. destruct (C55_hyperg_terminates a b z NP) as (n & v & _ & _ & H). exists n, v. exact H. Qed.

Lemma interior_case p (z k : Z) : pZ p = IZR z -> (0 < z)%Z -> 0 < pT p -> k <> 0%Z ->
  radius (pA p) * lorentz (pT p) + 3 / 2 * coupling z <= 3 / 2 ->
  forall s, s = (if Rlt_dec 0 (IZR k) then 1 else -1) ->
  let rho := radius (pA p) in let gz := -1 * s * (rho * lorentz (pT p) + 3 / 2 * IZR z * fine_structure) in let z1 := -1 * s * IZR z in
  exists m v, forall fuel, (m <= fuel)%nat ->
    inner_loop fuel rho gz z1 (Rabs (IZR k)) (1 / 2 * (gz + rho) * 1) ((1 + 2 * Rabs (IZR k)) * 1 / (rho - gz)) 1 ((1 + 2 * Rabs (IZR k)) * 1 / (rho - gz)) 1 1 = Some v.
Proof.
  intros EZ ZP TP KN HC s ES rho gz z1.
  assert (RP : 0 < rho) by (unfold rho, radius; apply Rmult_lt_0_compat; [apply exp_pos|lra]).
  assert (GP : 1 < lorentz (pT p)) by (unfold lorentz; assert (0 < pT p / (9314940954 / 10000000)) by (apply pos_quot; lra); lra).
  assert (CP : 0 < coupling z) by (unfold coupling; apply pos_quot; [apply IZR_lt; exact ZP|lra]).
  assert (SS : s = 1 \/ s = -1) by (destruct (Rlt_dec 0 (IZR k)); auto). clear ES.
  assert (K1 : 1 <= Rabs (IZR k)) by (rewrite <- abs_IZR; apply IZR_le; lia).
  pose proof (coupling_R z) as CR. set (c := coupling z) in *. set (y := rho * lorentz (pT p)) in *. fold rho in HC. fold y in HC.
  assert (YR : rho < y) by (unfold y; nra).
  assert (GE : gz = - s * (y + 3 / 2 * c)) by (unfold gz; rewrite <- CR; fold y; ring).
  destruct (interior_exists (fine_structure * z1) rho gz (Rabs (IZR k))) as (a & b & I).
  assert (GG : Rabs (fine_structure * z1) = c).
  { unfold z1. replace (fine_structure * (-1 * s * IZR z)) with (- s * (fine_structure * IZR z)) by ring. rewrite CR, Rabs_mult, (Rabs_right c) by lra.
    destruct SS as [-> | ->]; [rewrite Rabs_Ropp, Rabs_R1|replace (- -1) with 1 by ring; rewrite Rabs_R1]; ring. }
  assert (PQ : (Rabs (rho - gz) = y + 3 / 2 * c + rho /\ Rabs (gz + rho) = y + 3 / 2 * c - rho) \/ (Rabs (rho - gz) = y + 3 / 2 * c - rho /\ Rabs (gz + rho) = y + 3 / 2 * c + rho)).
  { destruct SS as [-> | ->]; rewrite GE; [left|right]; split.
    - rewrite Rabs_right by lra. ring.
    - rewrite Rabs_left by lra. ring.
    - rewrite Rabs_left by lra. ring.
    - rewrite Rabs_right by lra. ring. }
  assert (PQ2 : Rabs (rho - gz) * Rabs (gz + rho) <= 9 / 4).
  { set (h := y + 3 / 2 * c) in *. assert (H9 : h * h <= 9 / 4) by (unfold h in *; nra). destruct PQ as [[-> ->]|[-> ->]]; nra. }
  destruct (inner_defined (fine_structure * z1) rho gz (Rabs (IZR k)) a b I K1) with (z1 := z1) as (m & v & H).
  - destruct PQ as [[-> _]|[-> _]]; lra.
  - rewrite GG. destruct PQ as [[-> _]|[-> _]]; lra.
  - rewrite GG. destruct PQ as [[_ ->]|[_ ->]]; lra.
  - exact PQ2.
  - reflexivity.
  - exists m, v. intros fuel F. specialize (H fuel F). rewrite (in_b0 _ _ _ _ _ _ I), (in_a0 _ _ _ _ _ _ I), (in_a1 _ _ _ _ _ _ I) in H.
    rewrite !Rmult_1_r. replace (1 / 2 * (gz + rho)) with ((gz + rho) / 2) by field. exact H.
Qed.

Lemma lits_p : Rlit 1.5 = 3 / 2 /\ Rlit (-1.0) = -1 /\ Rlit (-1) = -1.
Proof. repeat split; dec_norm; lra. Qed.

Theorem C56_phase p (z k : Z) : pZ p = IZR z -> (0 < z)%Z -> 0 < pA p -> 0 < pT p -> k <> 0%Z ->
  radius (pA p) * lorentz (pT p) + 3 / 2 * coupling z <= 3 / 2 ->
  exists n d, - PI < d <= PI /\ forall fuel, (n <= fuel)%nat -> phase fuel p (IZR k) = Some d.
Proof.
  intros EZ ZP AP TP KN HC.
  assert (RP : 0 < radius (pA p)) by (unfold radius; apply Rmult_lt_0_compat; [apply exp_pos|lra]).
  assert (GP : 1 < lorentz (pT p)) by (unfold lorentz; assert (0 < pT p / (9314940954 / 10000000)) by (apply pos_quot; lra); lra).
  assert (CP : 0 < coupling z) by (unfold coupling; apply pos_quot; [apply IZR_lt; exact ZP|lra]).
  assert (C1 : coupling z < 1) by nra.
  assert (ZB : (0 < z < 137035999139)%Z). { split; [exact ZP|]. apply lt_IZR. unfold coupling in C1. apply Rmult_lt_compat_r with (r := 137035999139 / 10 ^ 9) in C1; [|lra]. unfold Rdiv in C1 at 1. rewrite Rmult_assoc, Rinv_l, Rmult_1_r in C1 by lra. lra. }
  assert (K2 : 1 <= IZR k * IZR k) by (rewrite <- mult_IZR; apply IZR_le; nia).
  assert (SP : 0 < IZR k * IZR k - coupling z * coupling z) by nra.
  assert (S0 : 0 < sk_of z k) by (unfold sk_of; apply sqrt_lt_R0; exact SP).
  set (sk := sk_of z k) in *.
  destruct (hyperg_defined (sk + 1, ls_eta p) (re (2 * sk + 1)) (0, 2 * ls_bgR p)) as (n1 & hr & H1); [apply no_pole_re; lra|].
  destruct (hyperg_defined (- sk + 1, ls_eta p) (re (-2 * sk + 1)) (0, 2 * ls_bgR p)) as (n2 & hs & H2); [apply no_pole_minus; assumption|].
  destruct (interior_case p z k EZ ZP TP KN HC _ eq_refl) as (n3 & ab & H3).
  assert (SKE : sqrt (IZR k * IZR k - fine_structure * fine_structure * pZ p * pZ p) = sk).
  { unfold sk, sk_of. rewrite EZ. f_equal. rewrite <- coupling_R. ring. }
  destruct lits_p as (LP15 & LPM & LPM').
  assert (SG : (if Rltb 0 (IZR k) then 1 else if Rltb (IZR k) 0 then -1 else 0) = (if Rlt_dec 0 (IZR k) then 1 else -1)).
  { destruct (Rltb_spec 0 (IZR k)) as [A|A]; destruct (Rlt_dec 0 (IZR k)) as [B|B]; try lra. destruct (Rltb_spec (IZR k) 0) as [D|D]; [reflexivity|]. exfalso. apply KN. apply eq_IZR. lra. }
  set (n0 := (n1 + n2 + n3)%nat).
  assert (PH : forall fuel, (n0 <= fuel)%nat -> exists H, phase fuel p (IZR k) = Some H /\ phase n0 p (IZR k) = Some H /\ - PI < H <= PI).
  { intros fuel F. unfold phase. numR. lits. rewrite LP15, LPM, LPM', SKE, SG, ls_rho_R, ls_gamma_R, EZ.
    change (2 * sk + 1, 0) with (re (2 * sk + 1)). change (-2 * sk + 1, 0) with (re (-2 * sk + 1)).
    rewrite !H1, !H2 by (unfold n0 in *; lia). cbn [obind].
    cbv zeta in H3. rewrite !H3 by (unfold n0 in *; lia). cbn [obind].
    match goal with |- context [if Rltb ?x ?y then Some _ else Some _] => destruct (Rltb x y) end; cbn [obind]; eexists; (split; [reflexivity|]; split; [reflexivity|]); apply Ratan2_range. }
  destruct (PH n0 (Nat.le_refl n0)) as (d & _ & D0 & DR). exists n0, d. split; [exact DR|]. intros fuel F. destruct (PH fuel F) as (d' & E1 & E2 & _). rewrite E1, <- E2. exact D0.
Qed.
Print Assumptions C56_phase.

(** hence both corrections are computed in finitely many steps *)
Lemma loop_defined (ph : R -> option R) eta : forall m n s x y, (1 <= n)%Z ->
  (forall k, k <> 0%Z -> (Z.abs k <= n + Z.of_nat m + 1)%Z -> ph (IZR k) <> None) -> exists v, lindhard_loop ph eta m n s x y = Some v.
Proof.
  induction m as [|m IH]; intros n s x y N H; [eexists; reflexivity|]. cbn [lindhard_loop]. cbv zeta. numR. lits.
  replace (- IZR n - 1) with (IZR (- n - 1)) by (rewrite minus_IZR, opp_IZR; reflexivity). rewrite <- (opp_IZR n).
  destruct (ph (IZR n)) eqn:E1; [|exfalso; revert E1; apply H; lia]. destruct (ph (IZR (- n - 1))) eqn:E2; [|exfalso; revert E2; apply H; lia]. destruct (ph (IZR (- n))) eqn:E3; [|exfalso; revert E3; apply H; lia].
  cbn [obind]. destruct (n =? 1)%Z; cbn [obind]; apply IH; try lia; intros k K1 K2; apply H; lia.
Qed.
Lemma X_loop_defined (ph : R -> option R) eta : forall m n s x y z t, (1 <= n)%Z ->
  (forall k, k <> 0%Z -> (Z.abs k <= n + Z.of_nat m + 1)%Z -> ph (IZR k) <> None) -> exists v, lindhard_X_loop ph eta m n s x y z t = Some v.
Proof.
  induction m as [|m IH]; intros n s x y z t N H; [eexists; reflexivity|]. cbn [lindhard_X_loop]. cbv zeta. numR. lits.
  replace (- IZR n - 1) with (IZR (- n - 1)) by (rewrite minus_IZR, opp_IZR; reflexivity). replace (- IZR n - 2) with (IZR (- n - 2)) by (rewrite minus_IZR, opp_IZR; reflexivity).
  replace (if (n =? 1)%Z then - IZR n else IZR n) with (IZR (if (n =? 1)%Z then - n else n)) by (destruct (n =? 1)%Z; [apply opp_IZR|reflexivity]).
  destruct (ph (IZR n)) eqn:E1; [|exfalso; revert E1; apply H; lia]. destruct (ph (IZR (- n - 1))) eqn:E2; [|exfalso; revert E2; apply H; lia]. destruct (ph (IZR (- n - 2))) eqn:E4; [|exfalso; revert E4; apply H; lia].
  destruct (ph (IZR (if (n =? 1)%Z then - n else n)%Z)) eqn:E3; [|exfalso; revert E3; apply H; destruct (n =? 1)%Z; lia].
  cbn [obind]. apply IH; try lia. intros k K1 K2; apply H; lia.
Qed.
Lemma loop_ext (ph ph' : R -> option R) eta : forall m n s x y, (1 <= n)%Z ->
  (forall k, k <> 0%Z -> (Z.abs k <= n + Z.of_nat m + 1)%Z -> ph (IZR k) = ph' (IZR k)) -> lindhard_loop ph eta m n s x y = lindhard_loop ph' eta m n s x y.
Proof.
  induction m as [|m IH]; intros n s x y N H; [reflexivity|]. cbn [lindhard_loop]. cbv zeta. numR. lits.
  replace (- IZR n - 1) with (IZR (- n - 1)) by (rewrite minus_IZR, opp_IZR; reflexivity). rewrite <- (opp_IZR n).
  rewrite !(H n), !(H (- n - 1)%Z), !(H (- n)%Z) by lia. destruct (ph' (IZR n)); [|reflexivity]. destruct (ph' (IZR (- n - 1))); [|reflexivity]. cbn [obind].
  destruct (if (n =? 1)%Z then ph' (IZR (- n)) else Some x); [|reflexivity]. cbn [obind]. apply IH; [lia|]. intros k K1 K2. apply H; lia.
Qed.
Lemma X_loop_ext (ph ph' : R -> option R) eta : forall m n s x y z t, (1 <= n)%Z ->
  (forall k, k <> 0%Z -> (Z.abs k <= n + Z.of_nat m + 1)%Z -> ph (IZR k) = ph' (IZR k)) -> lindhard_X_loop ph eta m n s x y z t = lindhard_X_loop ph' eta m n s x y z t.
Proof.
  induction m as [|m IH]; intros n s x y z t N H; [reflexivity|]. cbn [lindhard_X_loop]. cbv zeta. numR. lits.
  replace (- IZR n - 1) with (IZR (- n - 1)) by (rewrite minus_IZR, opp_IZR; reflexivity). replace (- IZR n - 2) with (IZR (- n - 2)) by (rewrite minus_IZR, opp_IZR; reflexivity).
  replace (if (n =? 1)%Z then - IZR n else IZR n) with (IZR (if (n =? 1)%Z then - n else n)) by (destruct (n =? 1)%Z; [apply opp_IZR|reflexivity]).
  rewrite (H n), (H (- n - 1)%Z), (H (- n - 2)%Z), (H (if (n =? 1)%Z then - n else n)%Z) by (destruct (n =? 1)%Z; lia).
  destruct (ph' (IZR n)); [|reflexivity]. destruct (ph' (IZR (- n - 1))); [|reflexivity]. cbn [obind]. destruct (ph' (IZR (if (n =? 1)%Z then - n else n)%Z)); [|reflexivity]. destruct (ph' (IZR (- n - 2))); [|reflexivity]. cbn [obind].
  apply IH; [lia|]. intros k K1 K2. apply H; lia.
Qed.

(** one number of steps for all angular momenta up to M *)
Lemma uniform (ph : nat -> Z -> option R) : (forall k, k <> 0%Z -> exists n d, forall fuel, (n <= fuel)%nat -> ph fuel k = Some d) ->
  forall M : nat, exists n, forall k, k <> 0%Z -> (Z.abs k <= Z.of_nat M)%Z -> exists d, forall fuel, (n <= fuel)%nat -> ph fuel k = Some d.
Proof.
  intros H M. induction M as [|M [n IH]].
  - exists O. intros k K1 K2. lia.
  - destruct (H (Z.of_nat (S M)) ltac:(lia)) as (n1 & d1 & H1). destruct (H (- Z.of_nat (S M))%Z ltac:(lia)) as (n2 & d2 & H2).
    exists (n + n1 + n2)%nat. intros k K1 K2. destruct (Z_le_gt_dec (Z.abs k) (Z.of_nat M)) as [L|G].
    + destruct (IH k K1 L) as [d D]. exists d. intros fuel F. apply D. lia.
    + assert (E : k = Z.of_nat (S M) \/ k = (- Z.of_nat (S M))%Z) by lia. destruct E as [-> | ->]; [exists d1; intros; apply H1; lia|exists d2; intros; apply H2; lia].
Qed.

Theorem C56_lindhard p (z : Z) : pZ p = IZR z -> (0 < z)%Z -> 0 < pA p -> 0 < pT p ->
  radius (pA p) * lorentz (pT p) + 3 / 2 * coupling z <= 3 / 2 ->
  exists n L X, forall fuel, (n <= fuel)%nat -> bethek_lindhard fuel p = Some L /\ bethek_lindhard_X fuel p = Some X.
Proof.
  intros EZ ZP AP TP HC.
  assert (U : exists n, forall k, k <> 0%Z -> (Z.abs k <= 5011)%Z -> exists d, forall fuel, (n <= fuel)%nat -> phase fuel p (IZR k) = Some d).
  { destruct (uniform (fun fuel k => phase fuel p (IZR k))) with (M := Z.to_nat 5011) as [n H].
    - intros k K. destruct (C56_phase p z k EZ ZP AP TP K HC) as (n & d & _ & H). exists n, d. exact H.
    - exists n. rewrite Z2Nat.id in H by lia. exact H. }
  destruct U as [n H]. exists n. unfold bethek_lindhard_X, bethek_lindhard.
  assert (M1 : (Z.of_nat (Z.to_nat 4999) = 4999)%Z) by (apply Z2Nat.id; lia). assert (M2 : (Z.of_nat (Z.to_nat 999) = 999)%Z) by (apply Z2Nat.id; lia).
  revert M1 M2. generalize (Z.to_nat 4999) (Z.to_nat 999). intros m1 m2 M1 M2.
  assert (AB : forall ph : nat -> R -> option R, (forall k, k <> 0%Z -> (Z.abs k <= 5011)%Z -> exists d, forall fuel, (n <= fuel)%nat -> ph fuel (IZR k) = Some d) ->
    exists v x, forall fuel, (n <= fuel)%nat -> lindhard_loop (ph fuel) (ls_eta p) m1 1 (Rlit 0) (Rlit 0) (Rlit 0) = Some v /\
      lindhard_X_loop (ph fuel) (ls_eta p) m2 1 (Rlit 0) (Rlit 0) (Rlit 0) (Rlit 0) (Rlit 0) = Some x).
  { clear H. intros ph H.
    assert (ND : forall k, k <> 0%Z -> (Z.abs k <= 5011)%Z -> ph n (IZR k) <> None) by (intros k K1 K2; destruct (H k K1 K2) as [d D]; rewrite D by lia; discriminate).
    assert (EX : forall fuel k, (n <= fuel)%nat -> k <> 0%Z -> (Z.abs k <= 5011)%Z -> ph fuel (IZR k) = ph n (IZR k)) by (intros fuel k F K1 K2; destruct (H k K1 K2) as [d D]; rewrite !D by lia; reflexivity).
    destruct (loop_defined (ph n) (ls_eta p) m1 1 (Rlit 0) (Rlit 0) (Rlit 0) ltac:(lia)) as [v V]; [intros k K1 K2; apply ND; lia|].
    destruct (X_loop_defined (ph n) (ls_eta p) m2 1 (Rlit 0) (Rlit 0) (Rlit 0) (Rlit 0) (Rlit 0) ltac:(lia)) as [x X]; [intros k K1 K2; apply ND; lia|].
    exists v, x. intros fuel F. rewrite <- V, <- X. split; [apply loop_ext|apply X_loop_ext]; try lia; intros k K1 K2; apply EX; try assumption; lia. }
  destruct (AB (fun fuel => phase fuel p) H) as (v & x & VX).
  numR. destruct (Rltb (ls_gamma p) (Rlit 10.0 / ls_rho p)); eexists; eexists; intros fuel F; destruct (VX fuel F) as [V X]; cbv beta in V, X; rewrite ?V, ?X; cbn [obind]; split; reflexivity.
Qed.
Print Assumptions C56_lindhard.

(** uranium at 1000 MeV/u: the corrections are computed, and are the sums of C54 *)
Example C56_case : let p := mkProj 238 92 92 1000 in
  exists n L X, (forall fuel, (n <= fuel)%nat -> bethek_lindhard fuel p = Some L /\ bethek_lindhard_X fuel p = Some X) /\ 0 <= X /\
    exists d : Z -> R, (forall k, (-5000 <= k <= 4999)%Z -> k <> 0%Z -> phase n p (IZR k) = Some (d k)) /\
      L = sum_from (L_term (sommerfeld 92 1000) d) 1 (Z.to_nat 4999) + beta2 1000 / 2.
Proof.
  intros p.
  assert (RA : radius 238 < 22 / 1000).
  { unfold radius. assert (P : Rpower 238 (1 / 3) < 7).
    { replace 7 with (Rpower (7 ^ 3) (1 / 3)).
      - unfold Rpower. apply exp_increasing. apply Rmult_lt_compat_l; [lra|]. apply ln_increasing; lra.
      - rewrite <- (Rpower_pow 3 7) by lra. rewrite Rpower_mult. replace (INR 3 * (1 / 3)) with 1 by (cbn [INR]; field). apply Rpower_1. lra. }
    lra. }
  assert (R0 : 0 < radius 238) by (unfold radius; apply Rmult_lt_0_compat; [apply exp_pos|lra]).
  assert (G : lorentz 1000 < 21 / 10) by (unfold lorentz; lra). assert (G1 : 1 < lorentz 1000) by (unfold lorentz; lra).
  destruct (C56_lindhard p 92) as (n & L & X & H).
  - reflexivity.
  - lia.
  - cbn. lra.
  - cbn. lra.
  - cbn [p pA pT]. unfold coupling. nra.
  - exists n, L, X. split; [exact H|]. destruct (H n (Nat.le_refl n)) as [HL HX]. split.
    + destruct (C54_X n p X) as (d & L' & _ & _ & ->); try exact HX; [cbn; lra|cbn; lra|]. apply Rmax_l.
    + destruct (C54_sum n p L) as (d & D & E); try exact HL; [cbn; lra|cbn; lra| |exists d; split; [exact D|exact E]].
      cbn [p pA pT]. apply Rmult_lt_reg_r with (radius 238); [exact R0|]. unfold Rdiv. rewrite Rmult_assoc, Rinv_l, Rmult_1_r by lra. nra.
Qed.
