(** * Splines of slowly varying increasing tables: bounds on the slope between the grid energies *)
From Coq Require Import ZArith Reals List Bool Lra Lia.
From Verif Require Import Num NumR Structures EnergyTable Spline GridProofs SplineProofs TotalProofs PropGrid PropSpline.
Import ListNotations.
Local Open Scope R_scope.

Lemma argmax (f : nat -> R) k : (1 <= k)%nat -> exists j, (1 <= j <= k)%nat /\ forall i, (1 <= i <= k)%nat -> f i <= f j.
Proof.
  induction k as [|k IH]; [lia|]. intros _. destruct (Nat.eq_dec k 0) as [->|NZ].
  - exists 1%nat. split; [lia|]. intros i I. replace i with 1%nat by lia. lra.
  - destruct (IH ltac:(lia)) as (j & J & M). destruct (Rle_lt_dec (f j) (f (S k))) as [G|G].
    + exists (S k). split; [lia|]. intros i I. destruct (Nat.eq_dec i (S k)) as [->|NE]; [lra|]. specialize (M i ltac:(lia)). lra.
    + exists j. split; [lia|]. intros i I. destruct (Nat.eq_dec i (S k)) as [->|NE]; [lra|]. apply M. lia.
Qed.

(** ** The tridiagonal system with the weights (s(i-1) + s(i)) / (h(i-1) + h(i)): c the slopes of the chords, s bounds that vary slowly *)
Section System.
  Variables (m : nat) (h c s b : nat -> R) (q : R).
  Hypothesis m2 : (2 <= m)%nat.
  Hypothesis Q : 1 <= q <= 104 / 100.
  Hypothesis hpos : forall i, (i < m)%nat -> 0 < h i.
  Hypothesis hq : forall i, (S i < m)%nat -> h (S i) = q * h i.
  Hypothesis spos : forall i, (i < m)%nat -> 0 < s i.
  Hypothesis sup : forall i, (S i < m)%nat -> s (S i) <= 13 / 10 * s i.
  Hypothesis sdn : forall i, (S i < m)%nat -> s i <= 13 / 10 * s (S i).
  Hypothesis rows : forall i, (S i < m)%nat -> / 3 * h (S i) * b i + 2 / 3 * (h i + h (S i)) * b (S i) + / 3 * h i * b (S (S i)) = c (S i) - c i.
  Hypothesis cs : forall i, (S i < m)%nat -> Rabs (c (S i) - c i) <= 15 / 100 * (s i + s (S i)).
  Hypothesis b0 : Rabs (b 0%nat) <= Rabs (b 1%nat).
  Hypothesis bm : Rabs (b m) <= Rabs (b (m - 1)%nat).

  Definition wt (i : nat) : R := (s (i - 1)%nat + s i) / (h (i - 1)%nat + h i).
  Lemma wt_pos i : (1 <= i < m)%nat -> 0 < wt i.
  Proof. intros I. unfold wt. pose proof (hpos i ltac:(lia)). pose proof (hpos (i - 1) ltac:(lia)). pose proof (spos i ltac:(lia)). pose proof (spos (i - 1) ltac:(lia)). apply Rdiv_lt_0_compat; lra. Qed.
  Lemma wt_down i : (1 <= i)%nat -> (S i < m)%nat -> wt i <= 13 / 10 * q * wt (S i).
  Proof.
    intros I1 I2. unfold wt. replace (S i - 1)%nat with i by lia. destruct i as [|i]; [lia|]. replace (S i - 1)%nat with i by lia.
    rewrite (hq (S i)) by lia. rewrite (hq i) by lia. pose proof (hpos i ltac:(lia)) as HP. pose proof (sdn i ltac:(lia)). pose proof (sdn (S i) ltac:(lia)).
    set (a := h i) in *. replace (13 / 10 * q * ((s (S i) + s (S (S i))) / (q * a + q * (q * a)))) with ((13 / 10 * (s (S i) + s (S (S i)))) / (a + q * a)) by (field; split; nra).
    apply Rmult_le_compat_r; [left; apply Rinv_0_lt_compat; nra|lra].
  Qed.
  Lemma wt_up i : (1 <= i)%nat -> (S i < m)%nat -> wt (S i) <= 13 / 10 * wt i.
  Proof.
    intros I1 I2. unfold wt. replace (S i - 1)%nat with i by lia. destruct i as [|i]; [lia|]. replace (S i - 1)%nat with i by lia.
    rewrite (hq (S i)) by lia. rewrite (hq i) by lia. pose proof (hpos i ltac:(lia)) as HP. pose proof (sup i ltac:(lia)). pose proof (sup (S i) ltac:(lia)). pose proof (spos i ltac:(lia)). pose proof (spos (S i) ltac:(lia)).
    set (a := h i) in *. assert (QA : 0 < a + q * a) by nra. replace (q * a + q * (q * a)) with (q * (a + q * a)) by ring.
    replace ((s (S i) + s (S (S i))) / (q * (a + q * a))) with ((s (S i) + s (S (S i))) / (a + q * a) * / q) by (field; lra).
    apply Rle_trans with (13 / 10 * (s i + s (S i)) / (a + q * a) * 1); [|right; field; lra].
    assert (IQ : 0 < / q <= 1) by (split; [apply Rinv_0_lt_compat; lra|rewrite <- Rinv_1; apply Rinv_le_contravar; lra]).
    apply Rmult_le_compat; [|lra| |lra].
    - pose proof (spos (S (S i)) ltac:(lia)). left. apply Rdiv_lt_0_compat; lra.
    - apply Rmult_le_compat_r; [left; apply Rinv_0_lt_compat; exact QA|lra].
  Qed.

  Lemma curvature_bound i : (1 <= i < m)%nat -> Rabs (b i) <= 7 / 10 * wt i.
  Proof.
    destruct (argmax (fun i => Rabs (b i) / wt i) (m - 1) ltac:(lia)) as (j & J & MAX).
    set (z := Rabs (b j) / wt j). assert (BZ : forall i, (1 <= i < m)%nat -> Rabs (b i) <= z * wt i).
    { intros k K. specialize (MAX k ltac:(lia)). pose proof (wt_pos k K) as W. apply (Rmult_le_compat_r (wt k)) in MAX; [|lra]. cbn beta in MAX. replace (Rabs (b k) / wt k * wt k) with (Rabs (b k)) in MAX by (field; lra). exact MAX. }
    pose proof (wt_pos j ltac:(lia)) as WJ. assert (BJ : Rabs (b j) = z * wt j) by (unfold z; field; lra).
    assert (Z0 : 0 <= z) by (unfold z; apply Rmult_le_pos; [apply Rabs_pos|left; apply Rinv_0_lt_compat; exact WJ]).
    destruct j as [|j]; [lia|]. pose proof (rows j ltac:(lia)) as RW. pose proof (hpos j ltac:(lia)) as HJ. pose proof (hpos (S j) ltac:(lia)) as HS.
    assert (ZW : 0 <= z * wt (S j)) by (apply Rmult_le_pos; lra).
    assert (L : Rabs (b j) <= 1352 / 1000 * (z * wt (S j))).
    { destruct j as [|j]; [rewrite BJ in b0; lra|]. apply Rle_trans with (z * wt (S j)); [apply BZ; lia|]. pose proof (wt_down (S j) ltac:(lia) ltac:(lia)) as D.
      apply Rle_trans with (z * (13 / 10 * q * wt (S (S j)))); [apply Rmult_le_compat_l; assumption|]. replace (z * (13 / 10 * q * wt (S (S j)))) with (13 / 10 * q * (z * wt (S (S j)))) by ring. apply Rmult_le_compat_r; lra. }
    assert (U : Rabs (b (S (S j))) <= 1352 / 1000 * (z * wt (S j))).
    { destruct (Nat.eq_dec (S (S j)) m) as [E|NE].
      - rewrite E. eapply Rle_trans; [exact bm|]. replace (m - 1)%nat with (S j) by lia. rewrite BJ. lra.
      - apply Rle_trans with (z * wt (S (S j))); [apply BZ; lia|]. pose proof (wt_up (S j) ltac:(lia) ltac:(lia)) as D.
        apply Rle_trans with (z * (13 / 10 * wt (S j))); [apply Rmult_le_compat_l; assumption|]. lra. }
    pose proof (cs j ltac:(lia)) as DS.
    set (H := h j + h (S j)) in *. assert (HP : 0 < H) by (unfold H; lra).
    assert (HW : s j + s (S j) = H * wt (S j)) by (unfold wt, H; replace (S j - 1)%nat with j by lia; field; lra).
    assert (EQ : 2 / 3 * H * b (S j) = (c (S j) - c j) - / 3 * (h (S j) * b j + h j * b (S (S j)))) by lra.
    assert (T1 : Rabs (2 / 3 * H * b (S j)) = 2 / 3 * H * (z * wt (S j))) by (rewrite Rabs_mult, BJ, (Rabs_pos_eq (2 / 3 * H)) by lra; reflexivity).
    assert (T2 : Rabs (h (S j) * b j + h j * b (S (S j))) <= H * (1352 / 1000 * (z * wt (S j)))).
    { eapply Rle_trans; [apply Rabs_triang|]. rewrite !Rabs_mult, (Rabs_pos_eq (h j)), (Rabs_pos_eq (h (S j))) by lra.
      assert (h (S j) * Rabs (b j) <= h (S j) * (1352 / 1000 * (z * wt (S j)))) by (apply Rmult_le_compat_l; lra).
      assert (h j * Rabs (b (S (S j))) <= h j * (1352 / 1000 * (z * wt (S j)))) by (apply Rmult_le_compat_l; lra). unfold H. lra. }
    assert (T3 : Rabs (2 / 3 * H * b (S j)) <= Rabs (c (S j) - c j) + / 3 * Rabs (h (S j) * b j + h j * b (S (S j)))).
    { rewrite EQ. unfold Rminus at 1. eapply Rle_trans; [apply Rabs_triang|]. rewrite Rabs_Ropp, Rabs_mult, (Rabs_pos_eq (/ 3)) by lra. lra. }
    assert (FIN : z <= 7 / 10).
    { rewrite T1 in T3. rewrite HW in DS. assert (P : 0 < H * wt (S j)) by (apply Rmult_lt_0_compat; assumption). apply (Rmult_le_reg_r (H * wt (S j))); [exact P|].
      replace (2 / 3 * H * (z * wt (S j))) with (2 / 3 * (z * (H * wt (S j)))) in T3 by ring. replace (H * (1352 / 1000 * (z * wt (S j)))) with (1352 / 1000 * (z * (H * wt (S j)))) in T2 by ring.
      assert (0 <= z * (H * wt (S j))) by (apply Rmult_le_pos; lra). lra. }
    intros I. eapply Rle_trans; [apply BZ; exact I|]. apply Rmult_le_compat_r; [left; apply wt_pos; exact I|exact FIN].
  Qed.

  (** both ends of an interval *)
  Lemma right_end i : (1 <= i < m)%nat -> Rabs (b i) * h i <= 83 / 100 * s i.
  Proof.
    intros I. pose proof (curvature_bound i I) as C. pose proof (hpos i ltac:(lia)) as HI. apply Rle_trans with (7 / 10 * wt i * h i); [apply Rmult_le_compat_r; lra|].
    unfold wt. destruct i as [|i]; [lia|]. replace (S i - 1)%nat with i by lia. rewrite (hq i) in * by lia. pose proof (hpos i ltac:(lia)) as HP. pose proof (sdn i ltac:(lia)) as SD. pose proof (spos (S i) ltac:(lia)) as SP.
    set (a := h i) in *. replace (7 / 10 * ((s i + s (S i)) / (a + q * a)) * (q * a)) with (7 / 10 * (s i + s (S i)) * (q / (1 + q))) by (field; split; nra).
    assert (QQ : 0 <= q / (1 + q) <= 104 / 204). { split; [apply Rmult_le_pos; [lra|left; apply Rinv_0_lt_compat; lra]|]. apply (Rmult_le_reg_r (1 + q)); [lra|]. replace (q / (1 + q) * (1 + q)) with q by (field; lra). lra. }
    apply Rle_trans with (7 / 10 * (23 / 10 * s (S i)) * (104 / 204)); [|lra]. apply Rmult_le_compat; [|lra| |lra]; [|lra]. pose proof (spos i ltac:(lia)). lra.
  Qed.
  Lemma left_end i : (1 <= S i < m)%nat -> Rabs (b (S i)) * h i <= 83 / 100 * s i.
  Proof.
    intros I. pose proof (curvature_bound (S i) I) as C. pose proof (hpos i ltac:(lia)) as HI. apply Rle_trans with (7 / 10 * wt (S i) * h i); [apply Rmult_le_compat_r; lra|].
    unfold wt. replace (S i - 1)%nat with i by lia. rewrite (hq i) in * by lia. pose proof (sup i ltac:(lia)) as SD. pose proof (spos i ltac:(lia)) as SP.
    set (a := h i) in *. replace (7 / 10 * ((s i + s (S i)) / (a + q * a)) * a) with (7 / 10 * (s i + s (S i)) * (1 / (1 + q))) by (field; split; nra).
    assert (QQ : 0 <= 1 / (1 + q) <= 1 / 2). { split; [apply Rmult_le_pos; [lra|left; apply Rinv_0_lt_compat; lra]|]. apply (Rmult_le_reg_r (1 + q)); [lra|]. replace (1 / (1 + q) * (1 + q)) with 1 by (field; lra). lra. }
    apply Rle_trans with (7 / 10 * (23 / 10 * s i) * (1 / 2)); [|lra]. apply Rmult_le_compat; [|lra| |lra]; [|lra]. pose proof (spos (S i) ltac:(lia)). lra.
  Qed.
  Lemma interval_ends i : (i < m)%nat -> Rabs (b i) * h i <= 83 / 100 * s i /\ Rabs (b (S i)) * h i <= 83 / 100 * s i.
  Proof.
    intros I. pose proof (hpos i I) as HI. split.
    - destruct (Nat.eq_dec i 0) as [->|NZ]; [|apply right_end; lia]. eapply Rle_trans; [|apply left_end; lia]. apply Rmult_le_compat_r; lra.
    - destruct (Nat.eq_dec (S i) m) as [E|NE]; [|apply left_end; lia]. rewrite E. eapply Rle_trans; [|apply right_end; lia]. apply Rmult_le_compat_r; [lra|]. replace i with (m - 1)%nat by lia. exact bm.
  Qed.
End System.

(** the slope of a cubic given by its chord and its second derivatives at both ends *)
Lemma slope_bound (hh ss b1 b2 w : R) : 0 < hh -> - / 100 <= w <= 1 -> Rabs b1 * hh <= 83 / 100 * ss -> Rabs b2 * hh <= 83 / 100 * ss ->
  Rabs (b1 * hh * (- (2 / 3) + 2 * w - w * w) + b2 * hh * (w * w - / 3)) <= 85 / 100 * ss.
Proof.
  intros H W B1 B2. assert (S0 : 0 <= ss) by (assert (0 <= Rabs b1 * hh) by (apply Rmult_le_pos; [apply Rabs_pos|lra]); lra).
  eapply Rle_trans; [apply Rabs_triang|]. rewrite !Rabs_mult, (Rabs_pos_eq hh) by lra.
  set (A := Rabs (- (2 / 3) + 2 * w - w * w)). set (B := Rabs (w * w - / 3)).
  assert (AB : A + B <= 1021 / 1000). { unfold A, B. unfold Rabs. destruct (Rcase_abs _), (Rcase_abs _); nra. }
  assert (A0 : 0 <= A) by apply Rabs_pos. assert (B0 : 0 <= B) by apply Rabs_pos.
  assert (Rabs b1 * hh * A <= 83 / 100 * ss * A) by (apply Rmult_le_compat_r; assumption). assert (Rabs b2 * hh * B <= 83 / 100 * ss * B) by (apply Rmult_le_compat_r; assumption).
  assert (83 / 100 * ss * (A + B) <= 83 / 100 * ss * (1021 / 1000)) by (apply Rmult_le_compat_l; lra). lra.
Qed.

(** ** Pasted functions that increase up to hi *)
Fixpoint incs (hi lo : R) (f : R -> R) (l : list (R * (R -> R))) : Prop :=
  match l with
  | [] => forall x z, lo <= x -> x < z -> z <= hi -> f x < f z
  | (k, g) :: l' => lo < k /\ (forall x z, lo <= x -> x < z -> z <= k -> z <= hi -> f x < f z) /\ f k = g k /\ incs hi k g l'
  end.
Lemma incs_paste hi l : forall lo f, incs hi lo f l -> paste f l lo = f lo /\ forall x z, lo <= x -> x < z -> z <= hi -> paste f l x < paste f l z.
Proof.
  induction l as [|[k g] l IH]; intros lo f H; cbn [incs paste] in *; [split; [reflexivity|exact H]|].
  destruct H as (LK & F & E & G). destruct (IH k g G) as [PK PG]. split; [destruct (Rlt_dec lo k); [reflexivity|lra]|].
  intros x z L X HI. destruct (Rlt_dec x k), (Rlt_dec z k); [apply F; lra| |lra|apply PG; lra].
  assert (f x < g k) by (rewrite <- E; apply F; lra). destruct (Req_dec z k) as [->|NE]; [rewrite PK; assumption|]. pose proof (PG k z ltac:(lra) ltac:(lra) HI). lra.
Qed.
