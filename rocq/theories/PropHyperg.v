(** * C55: the confluent hypergeometric series, ln Gamma, and the series inside the nucleus *)
From Coq Require Import ZArith Reals List Bool Lra Lia.
From Verif Require Import Num NumR Structures Calculations EnergyOutProofs PropSrim Lindhard TrigR PropLindhard.
Import ListNotations.
Local Open Scope R_scope.

(** ** Complex numbers as pairs *)
Definition C : Type := R * R.
Definition re (x : R) : C := (x, 0).
Definition cprod (a : nat -> C) (n : nat) : C := fold_left (fun s i => cmul s (a i)) (seq 0 n) (re 1).
Fixpoint csum (t : nat -> C) (n : nat) : C := match n with O => t O | S m => cadd (csum t m) (t n) end.

Lemma cplx_eq (a b : C) : fst a = fst b -> snd a = snd b -> a = b.
Proof. destruct a, b. cbn. congruence. Qed.
Definition sq (a : C) : R := fst a * fst a + snd a * snd a.
Lemma sq_nonneg a : 0 <= sq a. Proof. unfold sq. pose proof (Rle_0_sqr (fst a)). pose proof (Rle_0_sqr (snd a)). unfold Rsqr in *. lra. Qed.
Lemma sq_zero a : sq a = 0 -> a = re 0.
Proof.
  unfold sq. intros H. pose proof (Rle_0_sqr (fst a)) as A. pose proof (Rle_0_sqr (snd a)) as B. unfold Rsqr in *.
  apply cplx_eq; cbn; apply Rsqr_0_uniq; unfold Rsqr; lra.
Qed.
Lemma sq_pos a : a <> re 0 -> 0 < sq a.
Proof. intros H. destruct (Rle_lt_or_eq_dec _ _ (sq_nonneg a)) as [L|E]; [exact L|]. symmetry in E. apply sq_zero in E. contradiction. Qed.
Lemma cabs_sq a : cabs (F:=R) a = sqrt (sq a). Proof. reflexivity. Qed.
Lemma cabs_nonneg (a : C) : 0 <= cabs a. Proof. rewrite cabs_sq. apply sqrt_pos. Qed.
Lemma cabs_pos (a : C) : a <> re 0 -> 0 < cabs a. Proof. intros H. rewrite cabs_sq. apply sqrt_lt_R0. now apply sq_pos. Qed.
Lemma sq_mul a b : sq (cmul a b) = sq a * sq b. Proof. unfold sq, cmul. numR. cbn [fst snd]. ring. Qed.
Lemma cabs_mul (a b : C) : cabs (cmul a b) = cabs a * cabs b.
Proof. rewrite !cabs_sq, sq_mul. apply sqrt_mult; apply sq_nonneg. Qed.
Lemma sq_div a b : b <> re 0 -> sq (cdiv a b) = sq a / sq b.
Proof. intros B. pose proof (sq_pos b B) as P. unfold sq, cdiv in *. numR. cbn [fst snd]. field. lra. Qed.
Lemma cabs_div (a b : C) : b <> re 0 -> cabs (cdiv a b) = cabs a / cabs b.
Proof. intros B. rewrite !cabs_sq, sq_div by exact B. apply sqrt_div; [apply sq_nonneg|now apply sq_pos]. Qed.
Lemma cabs_divr (a : C) x : 0 < x -> cabs (cdivr a x) = cabs a / x.
Proof.
  intros X. rewrite !cabs_sq. replace (sq (cdivr a x)) with (sq a / (x * x)).
  - rewrite sqrt_div by (try apply sq_nonneg; nra). rewrite sqrt_square by lra. reflexivity.
  - unfold sq, cdivr. numR. cbn [fst snd]. field. lra.
Qed.
Lemma cabs_triangle (a b : C) : cabs (cadd a b) <= cabs a + cabs b.
Proof.
  rewrite !cabs_sq. apply Rsqr_incr_0; [|apply sqrt_pos|apply Rplus_le_le_0_compat; apply sqrt_pos]. unfold Rsqr.
  rewrite sqrt_sqrt by apply sq_nonneg. replace ((sqrt (sq a) + sqrt (sq b)) * (sqrt (sq a) + sqrt (sq b))) with (sqrt (sq a) * sqrt (sq a) + sqrt (sq b) * sqrt (sq b) + 2 * (sqrt (sq a) * sqrt (sq b))) by ring.
  rewrite !sqrt_sqrt by apply sq_nonneg. rewrite <- sqrt_mult by apply sq_nonneg.
  assert (D : fst a * fst b + snd a * snd b <= sqrt (sq a * sq b)).
  { destruct (Rle_lt_dec (fst a * fst b + snd a * snd b) 0) as [N|P]; [eapply Rle_trans; [exact N|apply sqrt_pos]|].
    apply Rsqr_incr_0; [|lra|apply sqrt_pos]. unfold Rsqr. rewrite sqrt_sqrt by (apply Rmult_le_pos; apply sq_nonneg).
    unfold sq. pose proof (Rle_0_sqr (fst a * snd b - snd a * fst b)) as Q. unfold Rsqr in Q. nra. }
  unfold sq, cadd in *. numR. cbn [fst snd] in *. nra.
Qed.
Lemma cabs_re x : cabs (re x) = Rabs x.
Proof. rewrite cabs_sq. unfold sq, re. cbn [fst snd]. rewrite Rmult_0_l, Rplus_0_r. apply sqrt_Rsqr_abs. Qed.

(** ** The series *)
(** (a)_n / (b)_n * z^n / n! *)
Definition rising (a : C) (n : nat) : C := cprod (fun i => cadd a (re (INR i))) n.
Definition cpow (z : C) (n : nat) : C := cprod (fun _ => z) n.
Definition kummer (a b z : C) (n : nat) : C := cdivr (cmul (cdiv (rising a n) (rising b n)) (cpow z n)) (INR (fact n)).
Definition no_pole (b : C) : Prop := forall n : nat, cadd b (re (INR n)) <> re 0.

Lemma cprod_S a n : cprod a (S n) = cmul (cprod a n) (a n).
Proof. unfold cprod. rewrite seq_S, fold_left_app. reflexivity. Qed.
Lemma sq_one : sq (re 1) = 1. Proof. unfold sq, re. cbn. ring. Qed.
Lemma rising_nonzero b n : no_pole b -> rising b n <> re 0.
Proof.
  intros NP. unfold rising. induction n as [|n IH].
  - intros E. assert (sq (re 1) = sq (re 0)) by (f_equal; exact E). rewrite sq_one in H. unfold sq, re in H. cbn in H. lra.
  - rewrite cprod_S. intros E. pose proof (sq_mul (cprod (fun i => cadd b (re (INR i))) n) (cadd b (re (INR n)))) as Q. rewrite E in Q.
    pose proof (sq_pos _ IH). pose proof (sq_pos _ (NP n)). assert (0 < sq (re 0)) by (rewrite Q; apply Rmult_lt_0_compat; assumption). unfold sq, re in H1. cbn in H1. lra.
Qed.
Lemma kummer_0 a b z : kummer a b z 0 = re 1.
Proof. unfold kummer, rising, cpow, cprod. cbn [seq fold_left fact INR]. unfold re, cdivr, cmul, cdiv. numR. cbn [fst snd]. apply cplx_eq; cbn [fst snd]; field. Qed.
Lemma cdiv_mul (a b c d : C) : b <> re 0 -> d <> re 0 -> cdiv (cmul a c) (cmul b d) = cmul (cdiv a b) (cdiv c d).
Proof.
  intros B D. apply sq_pos in B, D. pose proof (sq_mul b d) as M. unfold sq, cdiv, cmul in *. numR. cbn [fst snd] in *.
  assert (B0 : fst b * fst b + snd b * snd b <> 0) by lra. assert (D0 : fst d * fst d + snd d * snd d <> 0) by lra. rewrite M.
  apply cplx_eq; cbn [fst snd]; field; split; assumption.
Qed.
Lemma cdivr_mul (a b : C) x y : x <> 0 -> y <> 0 -> cdivr (cmul a b) (x * y) = cmul (cdivr a y) (cdivr b x).
Proof. intros. unfold cdivr, cmul. numR. cbn [fst snd]. apply cplx_eq; cbn [fst snd]; field; auto. Qed.
Lemma cmul_assoc (a b c : C) : cmul (cmul a b) c = cmul a (cmul b c).
Proof. unfold cmul. numR. cbn [fst snd]. apply cplx_eq; cbn [fst snd]; ring. Qed.
Lemma cmul_comm (a b : C) : cmul a b = cmul b a.
Proof. unfold cmul. numR. cbn [fst snd]. apply cplx_eq; cbn [fst snd]; ring. Qed.
Lemma cdivr_l (a b : C) x : cdivr (cmul a b) x = cmul (cdivr a x) b.
Proof. unfold cdivr, cmul, Rdiv. numR. cbn [fst snd]. unfold Rdiv. apply cplx_eq; cbn [fst snd]; ring. Qed.
Lemma kummer_S a b z n : no_pole b -> kummer a b z (S n) =
  cmul (cmul (kummer a b z n) (cdiv (cadd a (re (INR n))) (cadd b (re (INR n))))) (cdivr z (INR n + 1)).
Proof.
  intros NP. unfold kummer, rising, cpow. pose proof (rising_nonzero b n NP) as P. unfold rising in P. rewrite !cprod_S. cbv beta.
  rewrite (cdiv_mul _ _ _ _ P (NP n)).
  replace (INR (fact (S n))) with ((INR n + 1) * INR (fact n)) by (change (fact (S n)) with (S n * fact n)%nat; rewrite mult_INR, S_INR; reflexivity).
  pose proof (INR_fact_neq_0 n) as NF. pose proof (pos_INR n) as PN.
  set (q := cdiv (cprod _ n) (cprod _ n)). set (w := cprod _ n). set (r := cdiv _ _).
  rewrite <- (cmul_assoc (cmul q r) w z), cdivr_mul by lra.
  f_equal. rewrite (cmul_assoc q r w), (cmul_comm r w), <- (cmul_assoc q w r), cdivr_l. reflexivity.
Qed.

(** ** hyperg is a partial sum *)
Definition small (t : nat -> C) (n : nat) : Prop := cabs (t n) <= 1 / 1000000 \/ cabs (t (pred n)) <= 1 / 1000000.
Definition first_small (t : nat -> C) (n : nat) : Prop := (1 <= n)%nat /\ small t n /\ forall m, (1 <= m < n)%nat -> ~ small t m.

Lemma lit6 : Rlit 1.0e-6 = 1 / 1000000. Proof. dec_norm; lra. Qed.
Lemma loop_step f a b z n : no_pole b ->
  hyperg_loop (S f) a b z (INR n) (kummer a b z n) (csum (kummer a b z) n) =
  if Rle_dec (cabs (kummer a b z (S n))) (1 / 1000000) then Some (csum (kummer a b z) (S n))
  else if Rle_dec (cabs (kummer a b z n)) (1 / 1000000) then Some (csum (kummer a b z) (S n))
  else hyperg_loop f a b z (INR (S n)) (kummer a b z (S n)) (csum (kummer a b z) (S n)).
Proof.
  intros NP. cbn [hyperg_loop csum]. cbv zeta. numR. lits. rewrite lit6.
  replace (INR n + 1 - 1) with (INR n) by ring. change (INR n, 0) with (re (INR n)). rewrite <- (kummer_S a b z n NP), <- S_INR.
  destruct (Rltb_spec (1 / 1000000) (cabs (kummer a b z (S n)))) as [L|L]; destruct (Rle_dec (cabs (kummer a b z (S n))) (1 / 1000000)); try lra; cbn [andb]; [|reflexivity].
  destruct (Rltb_spec (1 / 1000000) (cabs (kummer a b z n))) as [M2|M2]; destruct (Rle_dec (cabs (kummer a b z n)) (1 / 1000000)); try lra; reflexivity.
Qed.
Lemma loop_first a b z : no_pole b -> forall f n v, (forall m, (1 <= m <= n)%nat -> ~ small (kummer a b z) m) ->
  hyperg_loop f a b z (INR n) (kummer a b z n) (csum (kummer a b z) n) = Some v <->
  exists k, (k <= n + f)%nat /\ first_small (kummer a b z) k /\ v = csum (kummer a b z) k.
Proof.
  intros NP. induction f as [|f IH]; intros n v H.
  - cbn [hyperg_loop]. split; [discriminate|]. intros (k & K & (K1 & KS & _) & _). exfalso. apply (H k); [lia|exact KS].
  - rewrite loop_step by exact NP.
    assert (STOP : small (kummer a b z) (S n) -> Some (csum (kummer a b z) (S n)) = Some v <->
      exists k, (k <= n + S f)%nat /\ first_small (kummer a b z) k /\ v = csum (kummer a b z) k).
    { intros SM. split.
      - intros E. injection E as <-. exists (S n). split; [lia|]. split; [|reflexivity]. split; [lia|]. split; [exact SM|]. intros m M. apply H. lia.
      - intros (k & K & (K1 & KS & KF) & ->). f_equal. f_equal. destruct (lt_eq_lt_dec k (S n)) as [[L|E]|G]; [exfalso; apply (H k); [lia|exact KS]|auto|exfalso; apply (KF (S n)); [lia|exact SM]]. }
    destruct (Rle_dec (cabs (kummer a b z (S n))) (1 / 1000000)) as [L|L]; [apply STOP; left; exact L|].
    destruct (Rle_dec (cabs (kummer a b z n)) (1 / 1000000)) as [L2|L2]; [apply STOP; right; exact L2|].
    rewrite IH.
    + replace (S n + f)%nat with (n + S f)%nat by lia. reflexivity.
    + intros m M. destruct (Nat.eq_dec m (S n)) as [->|NE]; [|apply H; lia]. intros [A|A]; cbn [pred] in A; contradiction.
Qed.

Theorem C55_hyperg (a b z : C) fuel v : no_pole b ->
  hyperg fuel a b z = Some v <->
  exists n, (n <= fuel)%nat /\ first_small (kummer a b z) n /\ v = csum (kummer a b z) n.
Proof.
  intros NP. unfold hyperg. numR. lits. change (Rlit 0.0) with (Rlit 0.0).
  replace (1, 0) with (kummer a b z 0) by apply kummer_0. change 0 with (INR 0) at 1.
  rewrite <- (loop_first a b z NP fuel 0 v) by (intros; lia). reflexivity.
Qed.
Print Assumptions C55_hyperg.

(** ** It terminates *)
Lemma INR_unbounded x : exists n, x < INR n.
Proof.
  exists (Z.to_nat (Z.max 0 (up x))). rewrite INR_IZR_INZ, Z2Nat.id by lia. apply Rlt_le_trans with (IZR (up x)); [exact (proj1 (archimed x))|apply IZR_le; lia].
Qed.
Lemma pow2_ge (j : nat) : INR j + 1 <= 2 ^ j.
Proof. induction j as [|j IH]; [cbn; lra|]. rewrite S_INR. cbn [pow]. pose proof (pos_INR j). lra. Qed.
Lemma halving (u : nat -> R) N eps : 0 < eps -> (forall n, 0 <= u n) -> (forall n, (N <= n)%nat -> u (S n) <= u n / 2) ->
  exists n, (N <= n)%nat /\ u n <= eps.
Proof.
  intros E P H. assert (B : forall j, u (N + j)%nat * 2 ^ j <= u N).
  { induction j as [|j IH]; [rewrite Nat.add_0_r; cbn; lra|]. rewrite Nat.add_succ_r. cbn [pow]. specialize (H (N + j)%nat ltac:(lia)).
    pose proof (pow_lt 2 j ltac:(lra)) as Q. apply Rle_trans with (u (N + j)%nat / 2 * (2 * 2 ^ j)); [apply Rmult_le_compat_r; lra|lra]. }
  destruct (INR_unbounded (u N / eps)) as [j J]. exists (N + j)%nat. split; [lia|]. specialize (B j). pose proof (pow2_ge j) as Q.
  apply Rmult_lt_compat_r with (r := eps) in J; [|exact E]. unfold Rdiv in J. rewrite Rmult_assoc, Rinv_l, Rmult_1_r in J by lra.
  destruct (Rle_lt_dec (u (N + j)%nat) eps) as [L|L]; [exact L|exfalso]. pose proof (pos_INR j) as PJ.
  assert (eps * (INR j + 1) <= u (N + j)%nat * 2 ^ j) by (apply Rmult_le_compat; lra). lra.
Qed.

(** the factor by which the size of the terms changes *)
Definition growth (a b z : C) (n : nat) : R := cabs (cadd a (re (INR n))) / cabs (cadd b (re (INR n))) * (cabs z / (INR n + 1)).
Lemma kummer_growth a b z n : no_pole b -> cabs (kummer a b z (S n)) = cabs (kummer a b z n) * growth a b z n.
Proof.
  intros NP. rewrite kummer_S by exact NP. rewrite !cabs_mul, cabs_div by apply NP. pose proof (pos_INR n). rewrite cabs_divr by lra. unfold growth. ring.
Qed.
Lemma growth_nonneg a b z n : no_pole b -> 0 <= growth a b z n.
Proof.
  intros NP. unfold growth. pose proof (pos_INR n). apply Rmult_le_pos; apply Rmult_le_pos; try apply cabs_nonneg; left; apply Rinv_0_lt_compat; [apply cabs_pos, NP|lra].
Qed.
Lemma growth_small a b z eps : no_pole b -> 0 < eps -> exists N, forall n, (N <= n)%nat -> growth a b z n <= eps.
Proof.
  intros NP E. destruct (INR_unbounded (1 + 2 * cabs b + (2 + 2 * cabs a) * cabs z / eps)) as [N HN]. exists N. intros n H. apply le_INR in H.
  pose proof (cabs_nonneg a) as PA. pose proof (cabs_nonneg b) as PB. pose proof (cabs_nonneg z) as PZ.
  assert (PQ : 0 <= (2 + 2 * cabs a) * cabs z / eps) by (apply Rmult_le_pos; [nra|left; apply Rinv_0_lt_compat; lra]).
  set (x := INR n) in *. assert (X : 1 <= x) by lra.
  assert (UA : cabs (cadd a (re x)) <= cabs a + x) by (eapply Rle_trans; [apply cabs_triangle|]; rewrite cabs_re, Rabs_right; lra).
  assert (LB : x / 2 <= cabs (cadd b (re x))).
  { pose proof (cabs_triangle (cadd b (re x)) (csub (re 0) b)) as T.
    replace (cadd (cadd b (re x)) (csub (re 0) b)) with (re x) in T by (unfold cadd, csub, re; numR; cbn [fst snd]; apply cplx_eq; cbn [fst snd]; ring).
    replace (cabs (csub (re 0) b)) with (cabs b) in T by (rewrite !cabs_sq; f_equal; unfold sq, csub, re; numR; cbn [fst snd]; ring).
    rewrite cabs_re, Rabs_right in T by lra. lra. }
  unfold growth. fold x.
  assert (Q1 : cabs (cadd a (re x)) / cabs (cadd b (re x)) <= 2 + 2 * cabs a).
  { apply Rmult_le_reg_r with (cabs (cadd b (re x))); [lra|]. unfold Rdiv. rewrite Rmult_assoc, Rinv_l, Rmult_1_r by lra.
    apply Rle_trans with ((2 + 2 * cabs a) * (x / 2)); [nra|apply Rmult_le_compat_l; lra]. }
  apply Rle_trans with ((2 + 2 * cabs a) * (cabs z / (x + 1))).
  - apply Rmult_le_compat_r; [apply Rmult_le_pos; [exact PZ|left; apply Rinv_0_lt_compat; lra]|exact Q1].
  - apply Rmult_le_reg_r with (x + 1); [lra|]. replace ((2 + 2 * cabs a) * (cabs z / (x + 1)) * (x + 1)) with ((2 + 2 * cabs a) * cabs z) by (field; lra).
    assert (Q2 : (2 + 2 * cabs a) * cabs z / eps <= x + 1) by lra. apply Rmult_le_compat_r with (r := eps) in Q2; [|lra].
    unfold Rdiv in Q2. rewrite Rmult_assoc, Rinv_l, Rmult_1_r in Q2 by lra. lra.
Qed.
(** the least element of a decidable set of numbers *)
Lemma least (P : nat -> Prop) : (forall n, P n \/ ~ P n) -> forall n, P n -> exists m, (m <= n)%nat /\ P m /\ forall i, (i < m)%nat -> ~ P i.
Proof.
  intros D n. induction n as [n IH] using lt_wf_ind. intros PN.
  assert (E : (exists i, (i < n)%nat /\ P i) \/ ~ exists i, (i < n)%nat /\ P i).
  { clear IH PN. induction n as [|n IH]; [right; intros (i & I & _); lia|]. destruct IH as [(i & I & Q)|NO]; [left; exists i; split; [lia|exact Q]|].
    destruct (D n) as [Q|Q]; [left; exists n; split; [lia|exact Q]|]. right. intros (i & I & R). destruct (Nat.eq_dec i n) as [->|NE]; [contradiction|]. apply NO. exists i. split; [lia|exact R]. }
  destruct E as [(i & I & Q)|NO].
  - destruct (IH i I Q) as (m & M & R). exists m. split; [lia|exact R].
  - exists n. split; [lia|]. split; [exact PN|]. intros i I Q. apply NO. exists i. auto.
Qed.
Lemma small_dec t n : small t n \/ ~ small t n.
Proof. unfold small. destruct (Rle_dec (cabs (t n)) (1 / 1000000)), (Rle_dec (cabs (t (pred n))) (1 / 1000000)); tauto. Qed.
Lemma first_exists a b z : no_pole b -> exists n, first_small (kummer a b z) n.
Proof.
  intros NP. destruct (growth_small a b z (1 / 2) NP ltac:(lra)) as [N HN].
  destruct (halving (fun n => cabs (kummer a b z n)) N (1 / 1000000) ltac:(lra) (fun n => cabs_nonneg _)) as (n & _ & S1).
  { intros n H. rewrite kummer_growth by exact NP. specialize (HN n H). pose proof (cabs_nonneg (kummer a b z n)). nra. }
  destruct (least (fun n => (1 <= n)%nat /\ small (kummer a b z) n)) with (n := S n) as (m & M & (M1 & M2) & M3).
  - intros i. destruct (small_dec (kummer a b z) i), (le_dec 1 i); tauto.
  - split; [lia|]. right. exact S1.
  - exists m. split; [exact M1|]. split; [exact M2|]. intros i I S2. apply (M3 i); [lia|]. split; [lia|exact S2].
Qed.

Theorem C55_hyperg_terminates (a b z : C) : no_pole b ->
  exists n v, first_small (kummer a b z) n /\ v = csum (kummer a b z) n /\ forall fuel, (n <= fuel)%nat -> hyperg fuel a b z = Some v.
Proof.
  intros NP. destruct (first_exists a b z NP) as [n H]. exists n, (csum (kummer a b z) n). split; [exact H|]. split; [reflexivity|].
  intros fuel F. apply (C55_hyperg a b z fuel _ NP). exists n. auto.
Qed.
Print Assumptions C55_hyperg_terminates.

(** if the terms at least halve from the last one on, the sum is within 1e-6 of all later sums *)
Theorem C55_hyperg_error (a b z : C) fuel v n : no_pole b -> hyperg fuel a b z = Some v -> first_small (kummer a b z) n ->
  (forall j, (n <= S j)%nat -> growth a b z j <= 1 / 2) ->
  forall m, (n <= m)%nat -> cabs (csub (csum (kummer a b z) m) v) <= 1 / 1000000.
Proof.
  intros NP HV FS G m M. destruct (proj1 (C55_hyperg a b z fuel v NP) HV) as (k & _ & KF & ->).
  assert (k = n) as ->. { destruct KF as (K1 & K2 & K3), FS as (F1 & F2 & F3). destruct (lt_eq_lt_dec k n) as [[L|E]|L]; [exfalso; apply (F3 k); [lia|exact K2]|exact E|exfalso; apply (K3 n); [lia|exact F2]]. }
  destruct FS as (N1 & SM & _). destruct n as [|n]; [lia|].
  assert (TN : cabs (kummer a b z (S n)) <= 1 / 1000000).
  { destruct SM as [S1|S1]; [exact S1|]. cbn [pred] in S1. rewrite kummer_growth by exact NP. specialize (G n ltac:(lia)).
    pose proof (growth_nonneg a b z n NP). pose proof (cabs_nonneg (kummer a b z n)). nra. }
  assert (B : forall j, cabs (kummer a b z (S n + j)) * 2 ^ j <= 1 / 1000000 /\
     cabs (csub (csum (kummer a b z) (S n + j)) (csum (kummer a b z) (S n))) <= 1 / 1000000 * (1 - / 2 ^ j)).
  { induction j as [|j [IH1 IH2]].
    - rewrite Nat.add_0_r. cbn [pow]. split; [lra|]. rewrite cabs_sq. unfold sq, csub. numR. cbn [fst snd].
      match goal with |- sqrt ?e <= _ => replace e with 0 by ring end. rewrite sqrt_0. lra.
    - rewrite Nat.add_succ_r. pose proof (pow_lt 2 j ltac:(lra)) as P.
      assert (T : cabs (kummer a b z (S (S n + j))) <= cabs (kummer a b z (S n + j)) / 2).
      { rewrite kummer_growth by exact NP. specialize (G (S n + j)%nat ltac:(lia)). pose proof (cabs_nonneg (kummer a b z (S n + j))). nra. }
      split.
      + cbn [pow]. apply Rle_trans with (cabs (kummer a b z (S n + j)) / 2 * (2 * 2 ^ j)); [apply Rmult_le_compat_r; lra|lra].
      + cbn [csum]. change (csum (kummer a b z) (S n + j)) with (csum (kummer a b z) (S n + j)).
        set (s := csum (kummer a b z) (S n + j)) in *. set (s0 := csum (kummer a b z) (S n)) in *. set (t := kummer a b z (S (S n + j))) in *.
        replace (csub (cadd s t) s0) with (cadd (csub s s0) t) by (unfold csub, cadd; numR; cbn [fst snd]; apply cplx_eq; cbn [fst snd]; ring).
        eapply Rle_trans; [apply cabs_triangle|].
        assert (cabs t <= 1 / 1000000 * (/ 2 ^ j / 2)).
        { eapply Rle_trans; [exact T|]. apply Rmult_le_compat_r with (r := / 2 ^ j) in IH1; [|left; apply Rinv_0_lt_compat; exact P]. rewrite Rmult_assoc, Rinv_r, Rmult_1_r in IH1 by lra. lra. }
        cbn [pow]. rewrite Rinv_mult. lra. }
  replace m with (S n + (m - S n))%nat by lia. eapply Rle_trans; [apply B|].
  pose proof (Rinv_0_lt_compat _ (pow_lt 2 (m - S n) ltac:(lra))). lra.
Qed.
Print Assumptions C55_hyperg_error.

(** ** Cases with real arguments *)
Fixpoint rk (a b z : R) (n : nat) : R := match n with O => 1 | S m => rk a b z m * ((a + INR m) / (b + INR m)) * (z / (INR m + 1)) end.
Lemma no_pole_re b : 0 < b -> no_pole (re b).
Proof. intros B n E. apply (f_equal fst) in E. unfold cadd, re in E. revert E. numR. cbn [fst]. pose proof (pos_INR n). lra. Qed.
Lemma kummer_re a b z n : 0 < b -> kummer (re a) (re b) (re z) n = re (rk a b z n).
Proof.
  intros B. induction n as [|n IH]; [apply kummer_0|]. rewrite kummer_S by (now apply no_pole_re). rewrite IH. cbn [rk]. pose proof (pos_INR n).
  unfold cmul, cdiv, cdivr, cadd, re. numR. cbn [fst snd]. apply cplx_eq; cbn [fst snd]; field; repeat split; try lra; nra.
Qed.
Lemma csum_re t u n : (forall i, t i = re (u i)) -> csum t n = re (sum_f_R0 u n).
Proof. intros H. induction n as [|n IH]; cbn [csum sum_f_R0]; [apply H|]. rewrite IH, H. unfold cadd, re. numR. cbn [fst snd]. f_equal. ring. Qed.

(** it may stop although later terms are not small: a relative size of 1e-7 of the first term says
    nothing about the sum *)
Theorem C55_hyperg_refuted : exists a b z v, no_pole b /\ hyperg 1 a b z = Some v /\ cabs v < 2 /\
  forall m, (10 <= m)%nat -> 1000 < cabs (csub (csum (kummer a b z) m) v).
Proof.
  set (a := 1 / 1000000000). exists (re a), (re 1), (re 100), (re (1 + a * 100)). pose proof (no_pole_re 1 ltac:(lra)) as NP.
  assert (KR : forall i, kummer (re a) (re 1) (re 100) i = re (rk a 1 100 i)) by (intros; apply kummer_re; lra).
  assert (V : csum (kummer (re a) (re 1) (re 100)) 1 = re (1 + a * 100)).
  { rewrite (csum_re _ _ 1 KR). f_equal. cbn. field. }
  split; [exact NP|]. split; [|split].
  - apply (C55_hyperg _ _ _ _ _ NP). exists 1%nat. split; [lia|]. split; [|symmetry; exact V]. split; [lia|]. split; [|intros; lia].
    left. rewrite KR, cabs_re. replace (rk a 1 100 1) with (1 / 10000000) by (cbn [rk INR]; unfold a; field). rewrite Rabs_right; lra.
  - rewrite cabs_re. unfold a. rewrite Rabs_right; lra.
  - intros m M. rewrite (csum_re _ _ m KR). replace (csub (re (sum_f_R0 (rk a 1 100) m)) (re (1 + a * 100))) with (re (sum_f_R0 (rk a 1 100) m - (1 + a * 100))) by (unfold csub, re; numR; cbn [fst snd]; f_equal; ring).
    rewrite cabs_re. assert (A : 0 < a) by (unfold a; lra).
    assert (P : forall n, 0 < rk a 1 100 n).
    { induction n as [|n IH]; cbn [rk]; [lra|]. pose proof (pos_INR n). apply Rmult_lt_0_compat; [apply Rmult_lt_0_compat; [exact IH|]|]; (apply Rmult_lt_0_compat; [lra|apply Rinv_0_lt_compat; lra]). }
    assert (MON : sum_f_R0 (rk a 1 100) 10 <= sum_f_R0 (rk a 1 100) m).
    { induction M as [|m M IH]; [lra|]. rewrite (tech5 _ m). specialize (P (S m)). lra. }
    assert (BIG : 1000 + 2 < sum_f_R0 (rk a 1 100) 10).
    { apply Rlt_le_trans with (rk a 1 100 10).
      - assert (E : rk a 1 100 10 = a * (a + 1) * (a + 2) * (a + 3) * (a + 4) * (a + 5) * (a + 6) * (a + 7) * (a + 8) * (a + 9) * (100 ^ 10 / (3628800 * 3628800))) by (cbn [rk INR]; field).
        rewrite E. unfold a. lra.
      - cbn [sum_f_R0]. pose proof P as P'. pose proof (P 0%nat). pose proof (P 1%nat). pose proof (P 2%nat). pose proof (P 3%nat). pose proof (P 4%nat). pose proof (P 5%nat). pose proof (P 6%nat). pose proof (P 7%nat). pose proof (P 8%nat). pose proof (P 9%nat). lra. }
    unfold a in *. rewrite Rabs_right; lra.
Qed.
Print Assumptions C55_hyperg_refuted.

(** the exponential of 1/10: six terms *)
Example C55_case : exists v, hyperg 5 (re 1) (re 1) (re (1 / 10)) = Some v /\
  v = re (1 + 1 / 10 + 1 / 200 + 1 / 6000 + 1 / 240000 + 1 / 12000000) /\
  (forall j, growth (re 1) (re 1) (re (1 / 10)) j <= 1 / 2).
Proof.
  pose proof (no_pole_re 1 ltac:(lra)) as NP. set (z := 1 / 10).
  assert (KR : forall i, kummer (re 1) (re 1) (re z) i = re (rk 1 1 z i)) by (intros; apply kummer_re; lra).
  exists (csum (kummer (re 1) (re 1) (re z)) 5). split; [|split].
  - apply (C55_hyperg _ _ _ _ _ NP). exists 5%nat. split; [lia|]. split; [|reflexivity]. split; [lia|].
    assert (K : forall i, cabs (kummer (re 1) (re 1) (re z) i) = rk 1 1 z i).
    { intros i. rewrite KR, cabs_re. apply Rabs_right. apply Rle_ge. induction i as [|i IH]; cbn [rk]; [lra|]. pose proof (pos_INR i).
      apply Rmult_le_pos; [apply Rmult_le_pos; [exact IH|]|]; apply Rmult_le_pos; try (left; apply Rinv_0_lt_compat); unfold z; lra. }
    assert (R0 : rk 1 1 z 0 = 1) by reflexivity. assert (R1 : rk 1 1 z 1 = 1 / 10) by (cbn [rk INR]; unfold z; field).
    assert (R2 : rk 1 1 z 2 = 1 / 200) by (cbn [rk INR]; unfold z; field). assert (R3 : rk 1 1 z 3 = 1 / 6000) by (cbn [rk INR]; unfold z; field).
    assert (R4 : rk 1 1 z 4 = 1 / 240000) by (cbn [rk INR]; unfold z; field).
    unfold small. split.
    + left. rewrite K. replace (rk 1 1 z 5) with (1 / 12000000) by (cbn [rk INR]; unfold z; field). lra.
    + intros m M [H|H]; rewrite K in H; assert (E : m = 1%nat \/ m = 2%nat \/ m = 3%nat \/ m = 4%nat) by lia; destruct E as [->|[->|[->| ->]]]; cbn [pred] in H; rewrite ?R0, ?R1, ?R2, ?R3, ?R4 in H; lra.
  - rewrite (csum_re _ _ 5 KR). f_equal. cbn [sum_f_R0 rk INR]. unfold z. field.
  - intros j. unfold growth. pose proof (pos_INR j).
    assert (E : cadd (re 1) (re (INR j)) <> re 0) by apply NP. apply cabs_pos in E. unfold Rdiv at 1. rewrite Rinv_r by lra. rewrite Rmult_1_l, cabs_re. unfold z. rewrite Rabs_right by lra.
    apply Rmult_le_reg_r with (INR j + 1); [lra|]. replace (1 / 10 / (INR j + 1) * (INR j + 1)) with (1 / 10) by (field; lra). lra.
Qed.

(** ** ln Gamma *)
Lemma lits_g : Rlit 5.5 = 11 / 2 /\ Rlit 1.000000000190015 = 1000000000190015 / 10 ^ 15 /\ Rlit 76.18009172947146 = 7618009172947146 / 10 ^ 14
  /\ Rlit (-86.50532032941677) = - (8650532032941677 / 10 ^ 14) /\ Rlit 24.01409824083091 = 2401409824083091 / 10 ^ 14
  /\ Rlit (-1.231739572450155) = - (1231739572450155 / 10 ^ 15) /\ Rlit 0.1208650973866179e-2 = 1208650973866179 / 10 ^ 18 /\ Rlit (-0.5395239384953e-5) = - (5395239384953 / 10 ^ 18).
Proof. repeat split; dec_norm; lra. Qed.
Ltac litsg := destruct lits_g as (G55 & Gc & G1 & G2 & G3 & G4 & G5 & G6); rewrite ?G55, ?Gc, ?G1, ?G2, ?G3, ?G4, ?G5, ?G6.

(** Lanczos' series with g = 5 and six terms, for real x *)
Definition lanczos (x : R) : R :=
  1000000000190015 / 10 ^ 15 + 7618009172947146 / 10 ^ 14 / x - 8650532032941677 / 10 ^ 14 / (x + 1) + 2401409824083091 / 10 ^ 14 / (x + 2)
  - 1231739572450155 / 10 ^ 15 / (x + 3) + 1208650973866179 / 10 ^ 18 / (x + 4) - 5395239384953 / 10 ^ 18 / (x + 5).
Lemma lanczos_pos x : 0 < x -> 0 < lanczos x.
Proof.
  intros X. unfold lanczos.
  set (c0 := 1000000000190015 / 10 ^ 15). set (c1 := 7618009172947146 / 10 ^ 14). set (c2 := 8650532032941677 / 10 ^ 14). set (c3 := 2401409824083091 / 10 ^ 14).
  set (c4 := 1231739572450155 / 10 ^ 15). set (c5 := 1208650973866179 / 10 ^ 18). set (c6 := 5395239384953 / 10 ^ 18).
  assert (D : 0 < x * (x + 1) * (x + 2) * (x + 3) * (x + 4) * (x + 5)) by (repeat apply Rmult_lt_0_compat; lra).
  match goal with |- 0 < ?e => replace e with (((c0 * (x * (x + 1) * (x + 2) * (x + 3) * (x + 4) * (x + 5)) + c1 * ((x + 1) * (x + 2) * (x + 3) * (x + 4) * (x + 5)) - c2 * (x * (x + 2) * (x + 3) * (x + 4) * (x + 5)) + c3 * (x * (x + 1) * (x + 3) * (x + 4) * (x + 5))
     - c4 * (x * (x + 1) * (x + 2) * (x + 4) * (x + 5)) + c5 * (x * (x + 1) * (x + 2) * (x + 3) * (x + 5)) - c6 * (x * (x + 1) * (x + 2) * (x + 3) * (x + 4)))) / (x * (x + 1) * (x + 2) * (x + 3) * (x + 4) * (x + 5))) by (field; repeat split; lra) end.
  apply Rmult_lt_0_compat; [|apply Rinv_0_lt_compat; exact D].
  assert (X2 : 0 < x * x) by nra. assert (X3 : 0 < x * x * x) by nra. assert (X4 : 0 < x * x * x * x) by nra. assert (X5 : 0 < x * x * x * x * x) by nra. assert (X6 : 0 < x * x * x * x * x * x) by nra.
  unfold c0, c1, c2, c3, c4, c5, c6. lra.
Qed.

Lemma Ratan2_0 x : 0 < x -> Ratan2 0 x = 0.
Proof. intros X. unfold Ratan2. destruct (Rlt_dec 0 x); [|lra]. unfold Rdiv. rewrite Rmult_0_l. apply atan_0. Qed.
Lemma Ratan2_neg y x : 0 < x -> Ratan2 (- y) x = - Ratan2 y x.
Proof. intros X. unfold Ratan2. destruct (Rlt_dec 0 x); [|lra]. rewrite <- atan_opp. f_equal. unfold Rdiv. ring. Qed.

(** the real part of the formula, with the angle-dependent parts *)
Theorem C55_lngamma_real x : 0 < x ->
  lngamma (re x) = re ((x - 1 / 2) * ln (x + 9 / 2) - (x + 9 / 2) + ln (2 * PI_) / 2 + ln (lanczos x)) /\ 0 < lanczos x.
Proof.
  intros X. pose proof (lanczos_pos x X) as P. split; [|exact P]. unfold lngamma, re, lngamma_coeff. cbn [fst snd lngamma_sums]. cbv zeta. numR. lits. litsg.
  destruct (Rltb_spec 0 x) as [_|N]; [|lra]. destruct (Rltb_spec x 0) as [N|_]; [lra|].
  cbn [fatan2 TrigR Z.add Pos.add Pos.succ]. cbv beta iota zeta.
  assert (E5 : x - 1 + 11 / 2 = x + 9 / 2) by lra. rewrite E5.
  replace (sqrt ((x + 9 / 2) * (x + 9 / 2) + 0 * 0)) with (x + 9 / 2) by (rewrite Rmult_0_l, Rplus_0_r; symmetry; apply sqrt_square; lra).
  rewrite Ratan2_0 by lra. 
  match goal with |- context [ln (?n * ?n + ?d * ?d)] => replace n with 0 by ring; replace d with (lanczos x) by (unfold lanczos; field; repeat split; lra) end.
  rewrite Ratan2_0 by exact P. rewrite (Rmult_0_l 0), Rplus_0_l, (ln_mult _ _ P P).
  apply cplx_eq; cbn [fst snd]; field.
Qed.
Print Assumptions C55_lngamma_real.

Definition gcore (x y : R) : C :=
  let r := sqrt ((x + 11 / 2) * (x + 11 / 2) + y * y) in
  let (num, denom) := lngamma_sums lngamma_coeff 1 x y 0 (1000000000190015 / 10 ^ 15) in
  ((x + 1 / 2) * ln r + (- y * Ratan2 y (x + 11 / 2) - (x + 11 / 2) + 1 / 2 * ln (2 * PI_))
     + 1 / 2 * ln (num * - y * (num * - y) + denom * denom),
   y * ln r + ((x + 1 / 2) * Ratan2 y (x + 11 / 2) - y) + Ratan2 (num * - y) denom).
Lemma lngamma_core (z : C) : lngamma z =
  if Rlt_dec 0 (fst z) then gcore (fst z - 1) (snd z)
  else if Rlt_dec (fst z) 0 then csub (re (ln PI_)) (cadd (gcore (- fst z) (- snd z)) (clog (csin (rmulc PI_ z))))
  else gcore (- fst z) (- snd z).
Proof.
  set (w := clog (csin (rmulc PI_ z))). unfold lngamma. fold w. unfold gcore, re. numR. lits. litsg. cbn [fatan2 TrigR].
  destruct (Rltb_spec 0 (fst z)) as [A|A]; destruct (Rlt_dec 0 (fst z)) as [A'|A']; try lra.
  - destruct (Rltb_spec (fst z) 0) as [B|B]; [lra|]. destruct (lngamma_sums lngamma_coeff 1 _ _ _ _). reflexivity.
  - destruct (lngamma_sums lngamma_coeff 1 _ _ _ _). destruct (Rltb_spec (fst z) 0) as [B|B]; destruct (Rlt_dec (fst z) 0) as [B'|B']; try lra; reflexivity.
Qed.

(** left of the imaginary axis the code uses Euler's reflection formula *)
Theorem C55_reflection (z : C) : fst z < 0 ->
  lngamma z = csub (re (ln PI_)) (cadd (lngamma (csub (re 1) z)) (clog (csin (rmulc PI_ z)))).
Proof.
  intros Z0. rewrite (lngamma_core z), (lngamma_core (csub (re 1) z)).
  assert (E1 : fst (csub (re 1) z) = 1 - fst z) by reflexivity. assert (E2 : snd (csub (re 1) z) = - snd z) by (unfold csub, re; numR; cbn [fst snd]; ring). rewrite E1, E2.
  destruct (Rlt_dec 0 (fst z)); [lra|]. destruct (Rlt_dec (fst z) 0); [|lra]. destruct (Rlt_dec 0 (1 - fst z)); [|lra].
  replace (1 - fst z - 1) with (- fst z) by ring. reflexivity.
Qed.
Print Assumptions C55_reflection.

(** ln Gamma of conjugate numbers have the same real part *)
Lemma gcore_conj x y : - (11 / 2) < x -> fst (gcore x (- y)) = fst (gcore x y).
Proof.
  intros X. unfold gcore.
  assert (E : forall cs j n d, lngamma_sums cs j x (- y) n d = lngamma_sums cs j x y n d).
  { induction cs as [|c cs IH]; intros; cbn [lngamma_sums]; [reflexivity|]. cbv zeta. numR. replace (- y * - y) with (y * y) by ring. apply IH. }
  rewrite E. destruct (lngamma_sums lngamma_coeff 1 x y _ _) as [n d]. cbn [fst]. rewrite Ratan2_neg by lra. replace (- y * - y) with (y * y) by ring.
  replace (n * - - y * (n * - - y)) with (n * - y * (n * - y)) by ring. ring.
Qed.

(** on the imaginary axis neither branch of the code applies the correction: it returns the value at
    1 - z without reflecting, so that |Gamma(z+1)| = |z| |Gamma(z)| fails *)
Theorem C55_axis (y : R) : lngamma (0, y) = lngamma (1, - y).
Proof.
  rewrite !lngamma_core. cbn [fst snd]. destruct (Rlt_dec 0 0); [lra|]. destruct (Rlt_dec 0 1); [|lra].
  replace (- 0) with 0 by ring. replace (1 - 1) with 0 by ring. reflexivity.
Qed.
Print Assumptions C55_axis.
Theorem C55_axis_refuted : exists z : C, z <> re 0 /\ fst (lngamma (cadd z (re 1))) <> fst (lngamma z) + ln (cabs z) /\
  fst (lngamma z) + ln (cabs z) - fst (lngamma (cadd z (re 1))) = ln 2.
Proof.
  assert (L : 0 < ln 2) by (rewrite <- ln_1; apply ln_increasing; lra).
  assert (K : fst (lngamma (0, 2)) + ln (cabs (F:=R) (0, 2)) - fst (lngamma (cadd (0, 2) (re 1))) = ln 2).
  { rewrite C55_axis, !lngamma_core. unfold cadd, re. numR. cbn [fst snd]. destruct (Rlt_dec 0 1); [|lra]. destruct (Rlt_dec 0 (0 + 1)); [|lra].
    replace (0 + 1 - 1) with (1 - 1) by ring. replace (2 + 0) with 2 by ring. rewrite gcore_conj by lra. rewrite cabs_sq. unfold sq. cbn [fst snd].
    replace (0 * 0 + 2 * 2) with (2 * 2) by ring. rewrite sqrt_square by lra. ring. }
  exists (0, 2). split; [|split; [|exact K]].
  - intros E. apply (f_equal snd) in E. cbn in E. lra.
  - intros E. rewrite E in K. lra.
Qed.
Print Assumptions C55_axis_refuted.

(** at 1 the first formula gives the exponent 11/2 with the factor 11/2 of the square root *)
Example C55_lngamma_case : fst (lngamma (re 1)) = ln (11 / 2) / 2 - 11 / 2 + ln (2 * PI_) / 2 + ln (lanczos 1)
  /\ lanczos 1 = 1000000000190015 / 10 ^ 15 + 7618009172947146 / 10 ^ 14 - 8650532032941677 / 10 ^ 14 / 2 + 2401409824083091 / 10 ^ 14 / 3
     - 1231739572450155 / 10 ^ 15 / 4 + 1208650973866179 / 10 ^ 18 / 5 - 5395239384953 / 10 ^ 18 / 6.
Proof.
  destruct (C55_lngamma_real 1 ltac:(lra)) as [E _]. rewrite E. unfold re. cbn [fst]. replace (1 + 9 / 2) with (11 / 2) by lra. unfold lanczos. split; [field|lra].
Qed.
