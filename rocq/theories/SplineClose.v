(** * Splines of increasing tables whose neighbouring chords differ by a fraction g: the slope between the grid energies *)
From Coq Require Import ZArith Reals List Bool Lra Lia.
From Verif Require Import Num NumR Structures EnergyTable Spline GridProofs SplineProofs TotalProofs PropGrid PropSpline SplineMono PropMono.
Import ListNotations.
Local Open Scope R_scope.

(** bounds on the second derivatives and on the bending of a piece, as fractions of the slope of the chord *)
Definition curv (g : R) : R := 3 / 2 * g / (96 / 100 - 104 / 100 * g).
Definition bend (g : R) : R := curv g * ((2 + g) * (104 / 204)).
Lemma curv_pos g : 0 <= g <= 3 / 10 -> 0 <= curv g.
Proof. intros G. unfold curv. apply Rmult_le_pos; [lra|]. left. apply Rinv_0_lt_compat. lra. Qed.
Lemma bend_pos g : 0 <= g <= 3 / 10 -> 0 <= bend g.
Proof. intros G. pose proof (curv_pos g G). unfold bend. apply Rmult_le_pos; lra. Qed.
(** the bending in simple terms *)
Lemma bend_simple g : 0 <= g <= 3 / 10 -> 1021 / 1000 * bend g <= 279 / 100 * g /\ (g <= 1 / 10 -> 1021 / 1000 * bend g <= 199 / 100 * g).
Proof.
  intros G. unfold bend, curv. assert (D : 0 < 96 / 100 - 104 / 100 * g) by lra. set (d := 96 / 100 - 104 / 100 * g) in *.
  assert (E : forall k, 1021 / 1000 * (3 / 2) * ((2 + g) * (104 / 204)) <= k * d -> 1021 / 1000 * (3 / 2 * g / d * ((2 + g) * (104 / 204))) <= k * g).
  { intros k H. apply (Rmult_le_reg_r d); [exact D|]. replace (1021 / 1000 * (3 / 2 * g / d * ((2 + g) * (104 / 204))) * d) with (g * (1021 / 1000 * (3 / 2) * ((2 + g) * (104 / 204)))) by (field; lra).
    replace (k * g * d) with (g * (k * d)) by ring. apply Rmult_le_compat_l; lra. }
  split; [|intros L]; apply E; unfold d; lra.
Qed.

Section CloseSystem.
  Variables (m : nat) (h c s b : nat -> R) (q g : R).
  Hypothesis m2 : (2 <= m)%nat.
  Hypothesis Q : 1 <= q <= 104 / 100.
  Hypothesis GR : 0 <= g <= 3 / 10.
  Hypothesis hpos : forall i, (i < m)%nat -> 0 < h i.
  Hypothesis hq : forall i, (S i < m)%nat -> h (S i) = q * h i.
  Hypothesis spos : forall i, (i < m)%nat -> 0 < s i.
  Hypothesis sup : forall i, (S i < m)%nat -> s (S i) <= (1 + g) * s i.
  Hypothesis sdn : forall i, (S i < m)%nat -> s i <= (1 + g) * s (S i).
  Hypothesis rows : forall i, (S i < m)%nat -> / 3 * h (S i) * b i + 2 / 3 * (h i + h (S i)) * b (S i) + / 3 * h i * b (S (S i)) = c (S i) - c i.
  Hypothesis cs : forall i, (S i < m)%nat -> Rabs (c (S i) - c i) <= g / 2 * (s i + s (S i)).
  Hypothesis b0 : Rabs (b 0%nat) <= Rabs (b 1%nat).
  Hypothesis bm : Rabs (b m) <= Rabs (b (m - 1)%nat).

  Let G : R := 104 / 100 * (1 + g).
  Let z0 : R := curv g.
  Let M : R := bend g.
  Let wt (i : nat) : R := (s (i - 1)%nat + s i) / (h (i - 1)%nat + h i).
  Lemma close_wt_pos i : (1 <= i < m)%nat -> 0 < wt i.
  Proof. intros I. unfold wt. pose proof (hpos i ltac:(lia)). pose proof (hpos (i - 1) ltac:(lia)). pose proof (spos i ltac:(lia)). pose proof (spos (i - 1) ltac:(lia)). apply Rdiv_lt_0_compat; lra. Qed.
  Lemma close_wt_down i : (1 <= i)%nat -> (S i < m)%nat -> wt i <= (1 + g) * q * wt (S i).
  Proof.
    intros I1 I2. unfold wt. replace (S i - 1)%nat with i by lia. destruct i as [|i]; [lia|]. replace (S i - 1)%nat with i by lia.
    rewrite (hq (S i)) by lia. rewrite (hq i) by lia. pose proof (hpos i ltac:(lia)) as HP. pose proof (sdn i ltac:(lia)). pose proof (sdn (S i) ltac:(lia)).
    set (a := h i) in *. replace ((1 + g) * q * ((s (S i) + s (S (S i))) / (q * a + q * (q * a)))) with (((1 + g) * (s (S i) + s (S (S i)))) / (a + q * a)) by (field; split; nra).
    apply Rmult_le_compat_r; [left; apply Rinv_0_lt_compat; nra|lra].
  Qed.
  Lemma close_wt_up i : (1 <= i)%nat -> (S i < m)%nat -> wt (S i) <= (1 + g) * wt i.
  Proof.
    intros I1 I2. unfold wt. replace (S i - 1)%nat with i by lia. destruct i as [|i]; [lia|]. replace (S i - 1)%nat with i by lia.
    rewrite (hq (S i)) by lia. rewrite (hq i) by lia. pose proof (hpos i ltac:(lia)) as HP. pose proof (sup i ltac:(lia)). pose proof (sup (S i) ltac:(lia)). pose proof (spos i ltac:(lia)). pose proof (spos (S i) ltac:(lia)).
    set (a := h i) in *. assert (QA : 0 < a + q * a) by nra. replace (q * a + q * (q * a)) with (q * (a + q * a)) by ring.
    replace ((s (S i) + s (S (S i))) / (q * (a + q * a))) with ((s (S i) + s (S (S i))) / (a + q * a) * / q) by (field; lra).
    apply Rle_trans with ((1 + g) * (s i + s (S i)) / (a + q * a) * 1); [|right; field; lra].
    assert (IQ : 0 < / q <= 1) by (split; [apply Rinv_0_lt_compat; lra|rewrite <- Rinv_1; apply Rinv_le_contravar; lra]).
    apply Rmult_le_compat; [|lra| |lra].
    - pose proof (spos (S (S i)) ltac:(lia)). left. apply Rdiv_lt_0_compat; lra.
    - apply Rmult_le_compat_r; [left; apply Rinv_0_lt_compat; exact QA|lra].
  Qed.

  Lemma close_curvature_bound i : (1 <= i < m)%nat -> Rabs (b i) <= z0 * wt i.
  Proof.
    destruct (argmax (fun i => Rabs (b i) / wt i) (m - 1) ltac:(lia)) as (j & J & MAX).
    set (z := Rabs (b j) / wt j). assert (BZ : forall i, (1 <= i < m)%nat -> Rabs (b i) <= z * wt i).
    { intros k K. specialize (MAX k ltac:(lia)). pose proof (close_wt_pos k K) as W. apply (Rmult_le_compat_r (wt k)) in MAX; [|lra]. cbn beta in MAX. replace (Rabs (b k) / wt k * wt k) with (Rabs (b k)) in MAX by (field; lra). exact MAX. }
    pose proof (close_wt_pos j ltac:(lia)) as WJ. assert (BJ : Rabs (b j) = z * wt j) by (unfold z; field; lra).
    assert (Z0 : 0 <= z) by (unfold z; apply Rmult_le_pos; [apply Rabs_pos|left; apply Rinv_0_lt_compat; exact WJ]).
    destruct j as [|j]; [lia|]. pose proof (rows j ltac:(lia)) as RW. pose proof (hpos j ltac:(lia)) as HJ. pose proof (hpos (S j) ltac:(lia)) as HS.
    assert (ZW : 0 <= z * wt (S j)) by (apply Rmult_le_pos; lra).
    assert (G1 : 1 <= G) by (unfold G; lra). assert (ZG : z * wt (S j) <= G * (z * wt (S j))) by (rewrite <- (Rmult_1_l (z * wt (S j))) at 1; apply Rmult_le_compat_r; lra).
    assert (QG : (1 + g) * q <= G) by (unfold G; rewrite (Rmult_comm (104 / 100)); apply Rmult_le_compat_l; lra). assert (GG : 1 + g <= G) by (unfold G; lra).
    assert (L : Rabs (b j) <= G * (z * wt (S j))).
    { destruct j as [|j]; [rewrite BJ in b0; lra|]. apply Rle_trans with (z * wt (S j)); [apply BZ; lia|]. pose proof (close_wt_down (S j) ltac:(lia) ltac:(lia)) as D.
      apply Rle_trans with (z * ((1 + g) * q * wt (S (S j)))); [apply Rmult_le_compat_l; assumption|]. replace (z * ((1 + g) * q * wt (S (S j)))) with ((1 + g) * q * (z * wt (S (S j)))) by ring. apply Rmult_le_compat_r; lra. }
    assert (U : Rabs (b (S (S j))) <= G * (z * wt (S j))).
    { destruct (Nat.eq_dec (S (S j)) m) as [E|NE].
      - rewrite E. eapply Rle_trans; [exact bm|]. replace (m - 1)%nat with (S j) by lia. rewrite BJ. lra.
      - apply Rle_trans with (z * wt (S (S j))); [apply BZ; lia|]. pose proof (close_wt_up (S j) ltac:(lia) ltac:(lia)) as D.
        apply Rle_trans with (z * ((1 + g) * wt (S j))); [apply Rmult_le_compat_l; assumption|]. replace (z * ((1 + g) * wt (S j))) with ((1 + g) * (z * wt (S j))) by ring. apply Rmult_le_compat_r; lra. }
    pose proof (cs j ltac:(lia)) as DS.
    set (H := h j + h (S j)) in *. assert (HP : 0 < H) by (unfold H; lra).
    assert (HW : s j + s (S j) = H * wt (S j)) by (unfold wt, H; replace (S j - 1)%nat with j by lia; field; lra).
    assert (EQ : 2 / 3 * H * b (S j) = (c (S j) - c j) - / 3 * (h (S j) * b j + h j * b (S (S j)))) by lra.
    assert (T1 : Rabs (2 / 3 * H * b (S j)) = 2 / 3 * H * (z * wt (S j))) by (rewrite Rabs_mult, BJ, (Rabs_pos_eq (2 / 3 * H)) by lra; reflexivity).
    assert (T2 : Rabs (h (S j) * b j + h j * b (S (S j))) <= H * (G * (z * wt (S j)))).
    { eapply Rle_trans; [apply Rabs_triang|]. rewrite !Rabs_mult, (Rabs_pos_eq (h j)), (Rabs_pos_eq (h (S j))) by lra.
      assert (h (S j) * Rabs (b j) <= h (S j) * (G * (z * wt (S j)))) by (apply Rmult_le_compat_l; lra).
      assert (h j * Rabs (b (S (S j))) <= h j * (G * (z * wt (S j)))) by (apply Rmult_le_compat_l; lra). unfold H. lra. }
    assert (T3 : Rabs (2 / 3 * H * b (S j)) <= Rabs (c (S j) - c j) + / 3 * Rabs (h (S j) * b j + h j * b (S (S j)))).
    { rewrite EQ. unfold Rminus at 1. eapply Rle_trans; [apply Rabs_triang|]. rewrite Rabs_Ropp, Rabs_mult, (Rabs_pos_eq (/ 3)) by lra. lra. }
    assert (FIN : z <= z0).
    { rewrite T1 in T3. rewrite HW in DS. assert (P : 0 < H * wt (S j)) by (apply Rmult_lt_0_compat; assumption). apply (Rmult_le_reg_r (H * wt (S j))); [exact P|].
      replace (2 / 3 * H * (z * wt (S j))) with (2 / 3 * (z * (H * wt (S j)))) in T3 by ring. replace (H * (G * (z * wt (S j)))) with (G * (z * (H * wt (S j)))) in T2 by ring.
      unfold z0, curv. assert (DP : 0 < 96 / 100 - 104 / 100 * g) by lra. set (pp := H * wt (S j)) in *. apply (Rmult_le_reg_l (96 / 100 - 104 / 100 * g)); [exact DP|].
      replace ((96 / 100 - 104 / 100 * g) * (3 / 2 * g / (96 / 100 - 104 / 100 * g) * pp)) with (3 / 2 * (g * pp)) by (field; lra). unfold G in T2. lra. }
    intros I. eapply Rle_trans; [apply BZ; exact I|]. apply Rmult_le_compat_r; [left; apply close_wt_pos; exact I|exact FIN].
  Qed.

  (** both ends of an interval *)
  Lemma close_right_end i : (1 <= i < m)%nat -> Rabs (b i) * h i <= M * s i.
  Proof.
    intros I. pose proof (close_curvature_bound i I) as C. pose proof (hpos i ltac:(lia)) as HI. apply Rle_trans with (z0 * wt i * h i); [apply Rmult_le_compat_r; lra|].
    unfold wt. destruct i as [|i]; [lia|]. replace (S i - 1)%nat with i by lia. rewrite (hq i) in * by lia. pose proof (hpos i ltac:(lia)) as HP. pose proof (sdn i ltac:(lia)) as SD. pose proof (spos (S i) ltac:(lia)) as SP.
    set (a := h i) in *. replace (z0 * ((s i + s (S i)) / (a + q * a)) * (q * a)) with (z0 * (s i + s (S i)) * (q / (1 + q))) by (field; split; nra).
    assert (QQ : 0 <= q / (1 + q) <= 104 / 204). { split; [apply Rmult_le_pos; [lra|left; apply Rinv_0_lt_compat; lra]|]. apply (Rmult_le_reg_r (1 + q)); [lra|]. replace (q / (1 + q) * (1 + q)) with q by (field; lra). lra. }
    pose proof (curv_pos g GR) as Z0. fold z0 in Z0. apply Rle_trans with (z0 * ((2 + g) * s (S i)) * (104 / 204)); [|right; unfold M, bend; fold z0; ring]. pose proof (spos i ltac:(lia)). apply Rmult_le_compat; [apply Rmult_le_pos; lra|lra|apply Rmult_le_compat_l; lra|lra].
  Qed.
  Lemma close_left_end i : (1 <= S i < m)%nat -> Rabs (b (S i)) * h i <= M * s i.
  Proof.
    intros I. pose proof (close_curvature_bound (S i) I) as C. pose proof (hpos i ltac:(lia)) as HI. apply Rle_trans with (z0 * wt (S i) * h i); [apply Rmult_le_compat_r; lra|].
    unfold wt. replace (S i - 1)%nat with i by lia. rewrite (hq i) in * by lia. pose proof (sup i ltac:(lia)) as SD. pose proof (spos i ltac:(lia)) as SP.
    set (a := h i) in *. replace (z0 * ((s i + s (S i)) / (a + q * a)) * a) with (z0 * (s i + s (S i)) * (1 / (1 + q))) by (field; split; nra).
    assert (QQ : 0 <= 1 / (1 + q) <= 1 / 2). { split; [apply Rmult_le_pos; [lra|left; apply Rinv_0_lt_compat; lra]|]. apply (Rmult_le_reg_r (1 + q)); [lra|]. replace (1 / (1 + q) * (1 + q)) with 1 by (field; lra). lra. }
    pose proof (curv_pos g GR) as Z0. fold z0 in Z0. apply Rle_trans with (z0 * ((2 + g) * s i) * (104 / 204)); [|right; unfold M, bend; fold z0; ring]. pose proof (spos (S i) ltac:(lia)). apply Rmult_le_compat; [apply Rmult_le_pos; lra|lra|apply Rmult_le_compat_l; lra|lra].
  Qed.
  Lemma close_interval_ends i : (i < m)%nat -> Rabs (b i) * h i <= M * s i /\ Rabs (b (S i)) * h i <= M * s i.
  Proof.
    intros I. pose proof (hpos i I) as HI. split.
    - destruct (Nat.eq_dec i 0) as [->|NZ]; [|apply close_right_end; lia]. eapply Rle_trans; [|apply close_left_end; lia]. apply Rmult_le_compat_r; lra.
    - destruct (Nat.eq_dec (S i) m) as [E|NE]; [|apply close_left_end; lia]. rewrite E. eapply Rle_trans; [|apply close_right_end; lia]. apply Rmult_le_compat_r; [lra|]. replace i with (m - 1)%nat by lia. exact bm.
  Qed.
End CloseSystem.

(** the slope of a cubic given by its chord and its second derivatives at both ends *)
Lemma close_slope (M hh ss b1 b2 w : R) : 0 <= M * ss -> 0 < hh -> - / 100 <= w <= 1 -> Rabs b1 * hh <= M * ss -> Rabs b2 * hh <= M * ss ->
  Rabs (b1 * hh * (- (2 / 3) + 2 * w - w * w) + b2 * hh * (w * w - / 3)) <= 1021 / 1000 * M * ss.
Proof.
  intros S0 H W B1 B2.
  eapply Rle_trans; [apply Rabs_triang|]. rewrite !Rabs_mult, (Rabs_pos_eq hh) by lra.
  set (A := Rabs (- (2 / 3) + 2 * w - w * w)). set (B := Rabs (w * w - / 3)).
  assert (AB : A + B <= 1021 / 1000). { unfold A, B. unfold Rabs. destruct (Rcase_abs _), (Rcase_abs _); nra. }
  assert (A0 : 0 <= A) by apply Rabs_pos. assert (B0 : 0 <= B) by apply Rabs_pos.
  assert (Rabs b1 * hh * A <= M * ss * A) by (apply Rmult_le_compat_r; assumption). assert (Rabs b2 * hh * B <= M * ss * B) by (apply Rmult_le_compat_r; assumption).
  assert (M * ss * (A + B) <= M * ss * (1021 / 1000)) by (apply Rmult_le_compat_l; lra). lra.
Qed.

Section CloseMono.
  Variables (n : nat) (lmin lmax : R).
  Hypothesis n3 : (3 <= n)%nat.
  Hypothesis nmax : (Z.of_nat n < 2147483648)%Z.
  Hypothesis lim : lmin < lmax.
  Notation tab := (et_make n lmin lmax).
  Notation X i := (gval n lmin lmax (INR i)).
  Hypothesis fin_ : fine tab.
  Variables (y : list R) (junk : R * R) (s : spline R).
  Hypothesis J0 : Rabs (fst junk) < 2.
  Hypothesis J1 : Rabs (snd junk) < 2.
  Hypothesis made : make_spline tab y junk = Ok s.
  Let h (i : nat) : R := X (S i) - X i.
  Let sg (i : nat) : R := chord_slope tab y i.
  Let q : R := exp (LN10_ * gstep n lmin lmax).
  Variable g : R.
  Hypothesis GR : 0 <= g <= 3 / 10.
  Let K : nat := (n - 1)%nat.
  Hypothesis w0 : forall i, (i < n - 1)%nat -> 0 < sg i.
  Hypothesis wv : forall i, (S i < n - 1)%nat -> sg (S i) <= (1 + g) * sg i /\ sg i <= (1 + g) * sg (S i).
  Lemma half_step a b : 0 < a -> 0 < b -> b <= (1 + g) * a /\ a <= (1 + g) * b -> Rabs (b - a) <= g / 2 * (a + b).
  Proof.
    intros A B [U V]. destruct (Rle_dec a b) as [L|L].
    - assert (0 <= g * (b - a)) by (apply Rmult_le_pos; lra). rewrite Rabs_pos_eq by lra. lra.
    - assert (0 <= g * (a - b)) by (apply Rmult_le_pos; lra). rewrite Rabs_left by lra. lra.
  Qed.
  Lemma h_pos i : 0 < h i.
  Proof. unfold h. pose proof (X_lt n lmin lmax n3 lim i (S i) ltac:(lia)). lra. Qed.
  Lemma X_q i : X (S i) = q * X i.
  Proof. pose proof (gval_ratio n lmin lmax (INR i)) as R1. rewrite S_INR. fold q in R1. rewrite <- R1. pose proof (gval_pos n lmin lmax (INR i)). field. lra. Qed.
  Lemma q_range : 1 <= q <= 104 / 100.
  Proof.
    pose proof (X_q 0) as E. pose proof (gval_pos n lmin lmax (INR 0)) as P. pose proof (h_pos 0) as H. unfold h in H.
    destruct (fin_ 0%nat (X 0) (X 1)) as [U _]; [apply at_gval; lia|apply at_gval; lia|]. rewrite E in U, H.
    set (x := X 0) in *. split; apply (Rmult_le_reg_r x); lra.
  Qed.
  Lemma h_q i : h (S i) = q * h i.
  Proof. unfold h. rewrite (X_q (S i)), (X_q i). ring. Qed.
  Lemma sg_eq i : (S i < n)%nat -> sg i = (nth (S i) y 0 - nth i y 0) / h i.
  Proof. intros I. unfold sg, chord_slope, h. rewrite !X_nth by lia. reflexivity. Qed.

  Lemma system : exists b, arrays (et_values tab) y s b /\ forall i, (i < n - 1)%nat ->
    Rabs (nth i b 0) * h i <= bend g * sg i /\ Rabs (nth (S i) b 0) * h i <= bend g * sg i.
  Proof.
    destruct (made_arrays n lmin lmax n3 y junk s made) as (Ly & _ & _ & b & Sb & A).
    assert (LV : length (et_values tab) = n) by apply et_values_length.
    assert (LF : length (firstn n y) = n) by (rewrite firstn_length; lia).
    destruct (C22_spline_rows (et_values tab) (firstn n y) junk (tab_increasing n lmin lmax n3 lim)
                ltac:(lia) ltac:(lia) J0 J1) as (b' & Sb' & Sol & _).
    assert (b' = b) by congruence. subst b'. clear Sb'. destruct Sol as [_ Sol]. unfold equation in Sol.
    assert (LR : length (spline_rows (et_values tab) (firstn n y) junk) = n) by (rewrite TotalProofs.spline_rows_length; lia).
    exists b. split; [exact A|].
    apply (close_interval_ends (n - 1) h sg sg (fun i => nth i b 0) q g); [lia|exact q_range|exact GR|intros i _; apply h_pos|intros i _; apply h_q|exact w0|intros i I; apply wv; exact I|intros i I; apply wv; exact I| |intros i I; exact (half_step _ _ (w0 i ltac:(lia)) (w0 (S i) I) (wv i I))| |].
    - intros i I. rewrite !sg_eq by lia.
      destruct (inner_rows_nth (et_values tab) (firstn n y) i ltac:(lia) ltac:(lia)) as (r & Hr & Ra & Rd & Rc & Rb).
      rewrite !X_nth in Ra, Rd, Rc, Rb by lia. rewrite !firstn_nth in Rb by lia.
      specialize (Sol (S i) ltac:(lia) r). rewrite LR in Sol.
      assert (HR : nth_error (spline_rows (et_values tab) (firstn n y) junk) (S i) = Some r).
      { unfold spline_rows. cbn [nth_error]. rewrite nth_error_app1 by (rewrite inner_rows_length; lia). exact Hr. }
      specialize (Sol HR). destruct (Nat.eqb_spec (S i) 0); [lia|]. destruct (Nat.eqb_spec (S (S i)) n); [lia|].
      rewrite Ra, Rd, Rc, Rb in Sol. replace (S i - 1)%nat with i in Sol by lia. replace (i + 2)%nat with (S (S i)) in Sol by lia. replace (i + 1)%nat with (S i) in Sol by lia.
      rewrite ?X_nth in Sol by lia. unfold h. rewrite <- Sol. ring.
    - specialize (Sol 0%nat ltac:(lia) (mkRow (lit 0.0) (lit 2.0) (fst junk) (lit 0.0)) eq_refl). rewrite LR in Sol. destruct (Nat.eqb_spec 0 0); [|lia]. destruct (Nat.eqb_spec 1 n); [lia|]. cbn [ra rd rc rb] in Sol. revert Sol. numR. intros Sol.
      assert (E : nth 0 b 0 = - (fst junk / 2) * nth 1 b 0) by (revert Sol; dec_norm; intros Sol; lra). cbn beta. rewrite E, Rabs_mult, Rabs_Ropp. unfold Rdiv. rewrite Rabs_mult, (Rabs_pos_eq (/ 2)) by lra.
      pose proof (Rabs_pos (nth 1 b 0)). rewrite <- (Rmult_1_l (Rabs (nth 1 b 0))) at 2. apply Rmult_le_compat_r; lra.
    - specialize (Sol (n - 1)%nat ltac:(lia) (mkRow (snd junk) (lit 2.0) (lit 0.0) (lit 0.0))). rewrite LR in Sol.
      assert (HR : nth_error (spline_rows (et_values tab) (firstn n y) junk) (n - 1) = Some (mkRow (snd junk) (lit 2.0) (lit 0.0) (lit 0.0))).
      { unfold spline_rows. replace (n - 1)%nat with (S (n - 2)) by lia. cbn [nth_error]. rewrite nth_error_app2 by (rewrite inner_rows_length; lia). rewrite inner_rows_length by lia. replace (n - 2 - (length (et_values tab) - 2))%nat with 0%nat by lia. reflexivity. }
      specialize (Sol HR). destruct (Nat.eqb_spec (n - 1) 0); [lia|]. destruct (Nat.eqb_spec (S (n - 1)) n); [|lia]. cbn [ra rd rc rb] in Sol. revert Sol. numR. intros Sol.
      assert (E : nth (n - 1) b 0 = - (snd junk / 2) * nth (n - 1 - 1) b 0) by (revert Sol; dec_norm; intros Sol; lra). cbn beta. rewrite E, Rabs_mult, Rabs_Ropp. unfold Rdiv. rewrite Rabs_mult, (Rabs_pos_eq (/ 2)) by lra.
      pose proof (Rabs_pos (nth (n - 1 - 1) b 0)). rewrite <- (Rmult_1_l (Rabs (nth (n - 1 - 1) b 0))) at 2. apply Rmult_le_compat_r; lra.
  Qed.

  (** the slope of a piece, also slightly to the left of its interval *)
  Lemma piece_slope i x : (i < K)%nat -> X i - h i / 100 <= x <= X (S i) -> Rabs (slope n lmin lmax s i x - sg i) <= (1021 / 1000 * bend g) * sg i.
  Proof.
    intros I XI. destruct system as (b & A & B). destruct (B i ltac:(lia)) as [B1 B2].  pose proof (h_pos i) as HP.
    unfold slope. cbv zeta. pose proof (et_values_length n lmin lmax) as LV. rewrite (ar_sa _ _ _ _ A), (ar_sb _ _ _ _ A), (ar_sc _ _ _ _ A) by lia.
    rewrite !X_nth by lia. replace (i + 1)%nat with (S i) by lia. set (v := (x - X i) / h i).
    assert (W : - / 100 <= v <= 1). { unfold v. unfold h in *. split; apply (Rmult_le_reg_r (X (S i) - X i)); try lra; unfold Rdiv; rewrite Rmult_assoc, Rinv_l by lra; lra. }
    pose proof (close_slope (bend g) (h i) (sg i) (nth i b 0) (nth (S i) b 0) v (Rmult_le_pos _ _ (bend_pos g GR) (Rlt_le _ _ (w0 i I))) HP W B1 B2) as SB.
    match goal with |- Rabs ?e <= _ => replace e with (nth i b 0 * h i * (- (2 / 3) + 2 * v - v * v) + nth (S i) b 0 * h i * (v * v - / 3)); [exact SB|] end.
    rewrite sg_eq by lia. unfold v. assert (E : X (S i) = X i + h i) by (unfold h; ring). rewrite E. field. lra.
  Qed.
  Lemma last_slope x : K = (n - 1)%nat -> Rabs (slope n lmin lmax s (n - 1) x - sg (n - 2)) <= (1021 / 1000 * bend g) * sg (n - 2).
  Proof.
    intros KN. destruct system as (b & A & _). pose proof (et_values_length n lmin lmax) as LV.
    assert (E : slope n lmin lmax s (n - 1) x = slope n lmin lmax s (n - 2) (X (n - 1))).
    { unfold slope. cbv zeta. pose proof (ar_al _ _ _ _ A) as P1. pose proof (ar_bl _ _ _ _ A) as P2. pose proof (ar_cl _ _ _ _ A) as P3. cbv zeta in P3. rewrite LV in P1, P2, P3. rewrite P1, P2, P3.
      rewrite (ar_sb _ _ _ _ A) by lia. rewrite !X_nth by lia. replace (n - 2 + 1)%nat with (n - 1)%nat by lia. ring. }
    rewrite E. apply piece_slope; [lia|]. replace (S (n - 2)) with (n - 1)%nat by lia. pose proof (h_pos (n - 2)) as HP. unfold h in HP. replace (S (n - 2)) with (n - 1)%nat in HP by lia. unfold h. replace (S (n - 2)) with (n - 1)%nat by lia. lra.
  Qed.

  Lemma close_derivative x : exists d i, spline_deriv s x = Ok d /\ (S i < n)%nat /\
    (i <> 0%nat -> X i - numeric_epsilon <= x) /\ (S i <> (n - 1)%nat -> x <= X (S i)) /\
    0 < chord_slope tab y i /\ Rabs (d - chord_slope tab y i) <= 1021 / 1000 * bend g * chord_slope tab y i.
  Proof.
    pose proof w0 as G0. pose proof eps_pos as EP.
    assert (EN : forall i, (S i < n)%nat -> numeric_epsilon <= h i / 100). { intros i I. destruct (fin_ i (X i) (X (S i))) as [_ U]; [apply at_gval; lia|apply at_gval; lia|]. unfold h. lra. }
    destruct (choose n lmin lmax n3 nmax lim x) as [H|(i & E & B & C)].
    - destruct (eval_left n lmin lmax n3 y junk s made x H) as [_ D]. exists (nth 0 (sp_c s) 0), 0%nat. split; [exact D|]. split; [lia|]. split; [intros KC; contradiction|]. split; [intros _; pose proof (h_pos 0) as HP; unfold h in HP; lra|]. split; [apply G0; lia|].
      pose proof (piece_slope 0 (X 0) ltac:(lia)) as PS. pose proof (h_pos 0) as HP. assert (HP' := HP). unfold h in HP'. specialize (PS ltac:(lra)). replace (slope n lmin lmax s 0 (X 0)) with (nth 0 (sp_c s) 0) in PS by (unfold slope; cbv zeta; ring). exact PS.
    - assert (H0 : X 0 <= x). { destruct C as [[C _]|[_ C]]; [|exact C]. pose proof (X_mono n lmin lmax n3 lim 0 i ltac:(lia)). lra. }
      destruct (eval_piece n lmin lmax n3 y junk s made x i H0 E B) as [_ D]; [exact (choose_above n lmin lmax n3 lim x i H0 C B)|].
            destruct (Nat.eq_dec i (n - 1)) as [->|NE].
      + assert (KN : K = (n - 1)%nat) by reflexivity. exists (slope n lmin lmax s (n - 1) x), (n - 2)%nat. split; [exact D|]. split; [lia|]. split; [intros _|].
        { pose proof (X_lt n lmin lmax n3 lim (n - 2) (n - 1) ltac:(lia)). destruct C as [[C _]|[C _]]; lra. }
        split; [intros KC; lia|]. split; [apply G0; lia|]. pose proof (last_slope x KN) as PS. exact PS.
      + exists (slope n lmin lmax s i x), i. split; [exact D|]. split; [lia|].
        assert (LO : X i - numeric_epsilon <= x) by (destruct C as [[C _]|[C _]]; lra).
        assert (HI : x <= X (S i)) by (pose proof (h_pos i) as HP; unfold h in HP; destruct C as [[_ C]|[C _]]; [specialize (C ltac:(lia)); lra|lra]).
        split; [intros _; exact LO|]. split; [intros _; exact HI|]. split; [apply G0; lia|].
        assert (PS : Rabs (slope n lmin lmax s i x - sg i) <= (1021 / 1000 * bend g) * sg i) by (apply piece_slope; [lia|]; specialize (EN i ltac:(lia)); lra). exact PS.
  Qed.

End CloseMono.
