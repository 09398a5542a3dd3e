(** * C65: when the splines of the tables increase *)
From Coq Require Import ZArith Reals List Bool Lra Lia.
From Verif Require Import Num NumR Structures EnergyTable Spline GridProofs SplineProofs TotalProofs PropGrid PropSpline SplineMono.
Import ListNotations.
Local Open Scope R_scope.

(** slope of the chord between the grid energies number i and i+1 *)
Definition chord_slope (t : EnergyTable R) (y : list R) (i : nat) : R :=
  (nth (S i) y 0 - nth i y 0) / (nth (S i) (et_values t) 0 - nth i (et_values t) 0).
(** data that increase, with neighbouring chords that differ by at most 30 percent of the flatter one *)
Definition gentle (t : EnergyTable R) (y : list R) : Prop :=
  (forall i, (S i < et_n t)%nat -> 0 < chord_slope t y i) /\
  (forall i, (S (S i) < et_n t)%nat -> chord_slope t y (S i) <= 1.3 * chord_slope t y i /\ chord_slope t y i <= 1.3 * chord_slope t y (S i)).
(** data that are gentle up to the interval number j+m; from there on the chords are not negative and at most 0.3 * 1.3^m
    times the chord of the interval number j *)
Definition gentle_below (t : EnergyTable R) (y : list R) (j m : nat) : Prop :=
  (S (j + m) < et_n t)%nat /\
  (forall i, (i <= j + m)%nat -> 0 < chord_slope t y i) /\
  (forall i, (i < j + m)%nat -> chord_slope t y (S i) <= 1.3 * chord_slope t y i /\ chord_slope t y i <= 1.3 * chord_slope t y (S i)) /\
  (forall i, (j + m <= i)%nat -> (S i < et_n t)%nat -> 0 <= chord_slope t y i <= 0.3 * 1.3 ^ m * chord_slope t y j).
(** a grid with at most 4 percent between neighbours, much more than the tolerance of the lookup *)
Definition fine (t : EnergyTable R) : Prop :=
  forall k a b, at_ t k = Some a -> at_ t (S k) = Some b -> b <= 1.04 * a /\ 100 * numeric_epsilon < b - a.

Lemma abs_in x a : Rabs x <= a -> - a <= x <= a.
Proof. unfold Rabs. destruct (Rcase_abs x); lra. Qed.

Section Mono.
  Variables (n : nat) (lmin lmax : R).
  Hypothesis n3 : (3 <= n)%nat.
  Hypothesis nmax : (Z.of_nat n < 2147483648)%Z.
  Hypothesis lim : lmin < lmax.
  Notation tab := (et_make n lmin lmax).
  Notation X i := (gval n lmin lmax (INR i)).
  Hypothesis fin_ : fine tab.
  Variables (y : list R) (junk : R * R) (s : spline R).
  Hypothesis J0 : Rabs (fst junk) < 2.
  Hypothesis J1 : Rabs (snd junk) < 2.
  Hypothesis made : make_spline tab y junk = Ok s.
  Let h (i : nat) : R := X (S i) - X i.
  Let sg (i : nat) : R := chord_slope tab y i.
  Let q : R := exp (LN10_ * gstep n lmin lmax).
  (** bounds w(i) that vary slowly, and are the slopes of the chords for the first K intervals *)
  Variables (w : nat -> R) (K : nat).
  Hypothesis K1 : (1 <= K <= n - 1)%nat.
  Hypothesis w0 : forall i, (i < n - 1)%nat -> 0 < w i.
  Hypothesis wv : forall i, (S i < n - 1)%nat -> w (S i) <= 13 / 10 * w i /\ w i <= 13 / 10 * w (S i).
  Hypothesis wc : forall i, (S i < n - 1)%nat -> Rabs (sg (S i) - sg i) <= 15 / 100 * (w i + w (S i)).
  Hypothesis wK : forall i, (i < K)%nat -> w i = sg i.
  Let reach (x : R) : Prop := K = (n - 1)%nat \/ x < X K - numeric_epsilon.
  Lemma sg0 i : (i < K)%nat -> 0 < sg i.
  Proof. intros I. rewrite <- wK by exact I. apply w0. lia. Qed.

  Lemma h_pos i : 0 < h i.
  Proof. unfold h. pose proof (X_lt n lmin lmax n3 lim i (S i) ltac:(lia)). lra. Qed.
  Lemma X_q i : X (S i) = q * X i.
  Proof. pose proof (gval_ratio n lmin lmax (INR i)) as R1. rewrite S_INR. fold q in R1. rewrite <- R1. pose proof (gval_pos n lmin lmax (INR i)). field. lra. Qed.
  Lemma q_range : 1 <= q <= 104 / 100.
  Proof.
    pose proof (X_q 0) as E. pose proof (gval_pos n lmin lmax (INR 0)) as P. pose proof (h_pos 0) as H. unfold h in H.
    destruct (fin_ 0%nat (X 0) (X 1)) as [U _]; [apply at_gval; lia|apply at_gval; lia|]. rewrite E in U, H.
    set (x := X 0) in *. split; apply (Rmult_le_reg_r x); lra.
  Qed.
  Lemma h_q i : h (S i) = q * h i.
  Proof. unfold h. rewrite (X_q (S i)), (X_q i). ring. Qed.
  Lemma sg_eq i : (S i < n)%nat -> sg i = (nth (S i) y 0 - nth i y 0) / h i.
  Proof. intros I. unfold sg, chord_slope, h. rewrite !X_nth by lia. reflexivity. Qed.

  Lemma system : exists b, arrays (et_values tab) y s b /\ forall i, (i < n - 1)%nat ->
    Rabs (nth i b 0) * h i <= 83 / 100 * w i /\ Rabs (nth (S i) b 0) * h i <= 83 / 100 * w i.
  Proof.
    destruct (made_arrays n lmin lmax n3 y junk s made) as (Ly & _ & _ & b & Sb & A).
    assert (LV : length (et_values tab) = n) by apply et_values_length.
    assert (LF : length (firstn n y) = n) by (rewrite firstn_length; lia).
    destruct (C22_spline_rows (et_values tab) (firstn n y) junk (tab_increasing n lmin lmax n3 lim)
                ltac:(lia) ltac:(lia) J0 J1) as (b' & Sb' & Sol & _).
    assert (b' = b) by congruence. subst b'. clear Sb'. destruct Sol as [_ Sol]. unfold equation in Sol.
    assert (LR : length (spline_rows (et_values tab) (firstn n y) junk) = n) by (rewrite TotalProofs.spline_rows_length; lia).
    exists b. split; [exact A|].
    apply (interval_ends (n - 1) h sg w (fun i => nth i b 0) q); [lia|exact q_range|intros i _; apply h_pos|intros i _; apply h_q|exact w0|intros i I; apply wv; exact I|intros i I; apply wv; exact I| |exact wc| |].
    - intros i I. rewrite !sg_eq by lia.
      destruct (inner_rows_nth (et_values tab) (firstn n y) i ltac:(lia) ltac:(lia)) as (r & Hr & Ra & Rd & Rc & Rb).
      rewrite !X_nth in Ra, Rd, Rc, Rb by lia. rewrite !firstn_nth in Rb by lia.
      specialize (Sol (S i) ltac:(lia) r). rewrite LR in Sol.
      assert (HR : nth_error (spline_rows (et_values tab) (firstn n y) junk) (S i) = Some r).
      { unfold spline_rows. cbn [nth_error]. rewrite nth_error_app1 by (rewrite inner_rows_length; lia). exact Hr. }
      specialize (Sol HR). destruct (Nat.eqb_spec (S i) 0); [lia|]. destruct (Nat.eqb_spec (S (S i)) n); [lia|].
      rewrite Ra, Rd, Rc, Rb in Sol. replace (S i - 1)%nat with i in Sol by lia. replace (i + 2)%nat with (S (S i)) in Sol by lia. replace (i + 1)%nat with (S i) in Sol by lia.
      rewrite ?X_nth in Sol by lia. unfold h. rewrite <- Sol. ring.
    - specialize (Sol 0%nat ltac:(lia) (mkRow (lit 0.0) (lit 2.0) (fst junk) (lit 0.0)) eq_refl). rewrite LR in Sol. destruct (Nat.eqb_spec 0 0); [|lia]. destruct (Nat.eqb_spec 1 n); [lia|]. cbn [ra rd rc rb] in Sol. revert Sol. numR. intros Sol.
      assert (E : nth 0 b 0 = - (fst junk / 2) * nth 1 b 0) by (revert Sol; dec_norm; intros Sol; lra). cbn beta. rewrite E, Rabs_mult, Rabs_Ropp. unfold Rdiv. rewrite Rabs_mult, (Rabs_pos_eq (/ 2)) by lra.
      pose proof (Rabs_pos (nth 1 b 0)). rewrite <- (Rmult_1_l (Rabs (nth 1 b 0))) at 2. apply Rmult_le_compat_r; lra.
    - specialize (Sol (n - 1)%nat ltac:(lia) (mkRow (snd junk) (lit 2.0) (lit 0.0) (lit 0.0))). rewrite LR in Sol.
      assert (HR : nth_error (spline_rows (et_values tab) (firstn n y) junk) (n - 1) = Some (mkRow (snd junk) (lit 2.0) (lit 0.0) (lit 0.0))).
      { unfold spline_rows. replace (n - 1)%nat with (S (n - 2)) by lia. cbn [nth_error]. rewrite nth_error_app2 by (rewrite inner_rows_length; lia). rewrite inner_rows_length by lia. replace (n - 2 - (length (et_values tab) - 2))%nat with 0%nat by lia. reflexivity. }
      specialize (Sol HR). destruct (Nat.eqb_spec (n - 1) 0); [lia|]. destruct (Nat.eqb_spec (S (n - 1)) n); [|lia]. cbn [ra rd rc rb] in Sol. revert Sol. numR. intros Sol.
      assert (E : nth (n - 1) b 0 = - (snd junk / 2) * nth (n - 1 - 1) b 0) by (revert Sol; dec_norm; intros Sol; lra). cbn beta. rewrite E, Rabs_mult, Rabs_Ropp. unfold Rdiv. rewrite Rabs_mult, (Rabs_pos_eq (/ 2)) by lra.
      pose proof (Rabs_pos (nth (n - 1 - 1) b 0)). rewrite <- (Rmult_1_l (Rabs (nth (n - 1 - 1) b 0))) at 2. apply Rmult_le_compat_r; lra.
  Qed.

  (** the slope of a piece, also slightly to the left of its interval *)
  Lemma piece_slope i x : (i < K)%nat -> X i - h i / 100 <= x <= X (S i) -> Rabs (slope n lmin lmax s i x - sg i) <= 85 / 100 * sg i.
  Proof.
    intros I XI. destruct system as (b & A & B). destruct (B i ltac:(lia)) as [B1 B2]. rewrite wK in B1, B2 by exact I. pose proof (h_pos i) as HP.
    unfold slope. cbv zeta. pose proof (et_values_length n lmin lmax) as LV. rewrite (ar_sa _ _ _ _ A), (ar_sb _ _ _ _ A), (ar_sc _ _ _ _ A) by lia.
    rewrite !X_nth by lia. replace (i + 1)%nat with (S i) by lia. set (v := (x - X i) / h i).
    assert (W : - / 100 <= v <= 1). { unfold v. unfold h in *. split; apply (Rmult_le_reg_r (X (S i) - X i)); try lra; unfold Rdiv; rewrite Rmult_assoc, Rinv_l by lra; lra. }
    pose proof (slope_bound (h i) (sg i) (nth i b 0) (nth (S i) b 0) v HP W B1 B2) as SB.
    match goal with |- Rabs ?e <= _ => replace e with (nth i b 0 * h i * (- (2 / 3) + 2 * v - v * v) + nth (S i) b 0 * h i * (v * v - / 3)); [exact SB|] end.
    rewrite sg_eq by lia. unfold v. assert (E : X (S i) = X i + h i) by (unfold h; ring). rewrite E. field. lra.
  Qed.
  Lemma last_slope x : K = (n - 1)%nat -> Rabs (slope n lmin lmax s (n - 1) x - sg (n - 2)) <= 85 / 100 * sg (n - 2).
  Proof.
    intros KN. destruct system as (b & A & _). pose proof (et_values_length n lmin lmax) as LV.
    assert (E : slope n lmin lmax s (n - 1) x = slope n lmin lmax s (n - 2) (X (n - 1))).
    { unfold slope. cbv zeta. pose proof (ar_al _ _ _ _ A) as P1. pose proof (ar_bl _ _ _ _ A) as P2. pose proof (ar_cl _ _ _ _ A) as P3. cbv zeta in P3. rewrite LV in P1, P2, P3. rewrite P1, P2, P3.
      rewrite (ar_sb _ _ _ _ A) by lia. rewrite !X_nth by lia. replace (n - 2 + 1)%nat with (n - 1)%nat by lia. ring. }
    rewrite E. apply piece_slope; [lia|]. replace (S (n - 2)) with (n - 1)%nat by lia. pose proof (h_pos (n - 2)) as HP. unfold h in HP. replace (S (n - 2)) with (n - 1)%nat in HP by lia. unfold h. replace (S (n - 2)) with (n - 1)%nat by lia. lra.
  Qed.

  Lemma mono_derivative x : reach x -> exists d i, spline_deriv s x = Ok d /\ (i < K)%nat /\
    (i <> 0%nat -> X i - numeric_epsilon <= x) /\ (S i <> (n - 1)%nat -> x <= X (S i)) /\
    0 < chord_slope tab y i /\ 0.15 * chord_slope tab y i <= d <= 1.85 * chord_slope tab y i.
  Proof.
    intros RX. pose proof sg0 as G0. pose proof eps_pos as EP.
    assert (EN : forall i, (S i < n)%nat -> numeric_epsilon <= h i / 100). { intros i I. destruct (fin_ i (X i) (X (S i))) as [_ U]; [apply at_gval; lia|apply at_gval; lia|]. unfold h. lra. }
    destruct (choose n lmin lmax n3 nmax lim x) as [H|(i & E & B & C)].
    - destruct (eval_left n lmin lmax n3 y junk s made x H) as [_ D]. exists (nth 0 (sp_c s) 0), 0%nat. split; [exact D|]. split; [lia|]. split; [intros KC; contradiction|]. split; [intros _; pose proof (h_pos 0) as HP; unfold h in HP; lra|]. split; [apply G0; lia|].
      pose proof (piece_slope 0 (X 0) ltac:(lia)) as PS. pose proof (h_pos 0) as HP. assert (HP' := HP). unfold h in HP'. specialize (PS ltac:(lra)). replace (slope n lmin lmax s 0 (X 0)) with (nth 0 (sp_c s) 0) in PS by (unfold slope; cbv zeta; ring). apply abs_in in PS. unfold sg in PS. lra.
    - assert (H0 : X 0 <= x). { destruct C as [[C _]|[_ C]]; [|exact C]. pose proof (X_mono n lmin lmax n3 lim 0 i ltac:(lia)). lra. }
      destruct (eval_piece n lmin lmax n3 y junk s made x i H0 E B) as [_ D]; [exact (choose_above n lmin lmax n3 lim x i H0 C B)|].
      assert (IK : K = (n - 1)%nat \/ (i < K)%nat). { destruct RX as [RX|RX]; [left; exact RX|right]. destruct (Nat.lt_ge_cases i K) as [IK|IK]; [exact IK|]. pose proof (X_mono n lmin lmax n3 lim K i ltac:(lia)). destruct C as [[C _]|[C _]]; lra. }
      destruct (Nat.eq_dec i (n - 1)) as [->|NE].
      + assert (KN : K = (n - 1)%nat) by (destruct IK; [assumption|lia]). exists (slope n lmin lmax s (n - 1) x), (n - 2)%nat. split; [exact D|]. split; [lia|]. split; [intros _|].
        { pose proof (X_lt n lmin lmax n3 lim (n - 2) (n - 1) ltac:(lia)). destruct C as [[C _]|[C _]]; lra. }
        split; [intros KC; lia|]. split; [apply G0; lia|]. pose proof (last_slope x KN) as PS. apply abs_in in PS. unfold sg in PS. lra.
      + exists (slope n lmin lmax s i x), i. split; [exact D|]. split; [lia|].
        assert (LO : X i - numeric_epsilon <= x) by (destruct C as [[C _]|[C _]]; lra).
        assert (HI : x <= X (S i)) by (pose proof (h_pos i) as HP; unfold h in HP; destruct C as [[_ C]|[C _]]; [specialize (C ltac:(lia)); lra|lra]).
        split; [intros _; exact LO|]. split; [intros _; exact HI|]. split; [apply G0; lia|].
        assert (PS : Rabs (slope n lmin lmax s i x - sg i) <= 85 / 100 * sg i) by (apply piece_slope; [lia|]; specialize (EN i ltac:(lia)); lra). apply abs_in in PS. unfold sg in PS. lra.
  Qed.

  (** a function with a positive derivative increases *)
  Lemma piece_increases i lo hi : (forall x, lo <= x <= hi -> 0 < slope n lmin lmax s i x) -> forall x z, lo <= x -> x < z -> z <= hi -> piece n lmin lmax s i x < piece n lmin lmax s i z.
  Proof.
    intros D x z L XZ U. destruct (MVT_cor2 (piece n lmin lmax s i) (slope n lmin lmax s i) x z XZ) as (c & E & C); [intros c C; apply piece_deriv|].
    specialize (D c ltac:(lra)). assert (0 < slope n lmin lmax s i c * (z - x)) by (apply Rmult_lt_0_compat; lra). lra.
  Qed.
  Lemma whole_increases x z : reach z -> x < z -> whole n lmin lmax s x < whole n lmin lmax s z.
  Proof.
    intros RZ XZ. pose proof sg0 as G0. pose proof eps_pos as EP. set (lo := Rmin x (X 0 - 1)). pose proof (Rmin_l x (X 0 - 1)) as M1. pose proof (Rmin_r x (X 0 - 1)) as M2. fold lo in M1, M2.
    assert (TAIL : forall k j, (j + k = n - 1)%nat -> incs z (X j) (piece n lmin lmax s j) (map (fun j => (X j, piece n lmin lmax s j)) (seq (S j) k))).
    { induction k as [|k IH]; intros j J; cbn [seq map incs].
      - intros a b LA AB BZ. replace j with (n - 1)%nat in * by lia. destruct RZ as [KN|RZ]; [|pose proof (X_mono n lmin lmax n3 lim K (n - 1) ltac:(lia)); lra]. apply (piece_increases (n - 1) a b); try lra. intros c _. pose proof (last_slope c KN) as PS. apply abs_in in PS. pose proof (G0 (n - 2)%nat ltac:(lia)) as P. fold (sg (n - 2)) in P. lra.
      - split; [apply X_lt; [exact n3|exact lim|lia]|]. split.
        + intros a b LA AB UB BZ. assert (JK : (j < K)%nat). { destruct RZ as [KN|RZ]; [lia|]. destruct (Nat.lt_ge_cases j K) as [JK|JK]; [exact JK|]. pose proof (X_mono n lmin lmax n3 lim K j ltac:(lia)). lra. }
          apply (piece_increases j (X j) (X (S j))); try lra. intros c C. pose proof (h_pos j). assert (PS : Rabs (slope n lmin lmax s j c - sg j) <= 85 / 100 * sg j) by (apply piece_slope; [lia|lra]). apply abs_in in PS. pose proof (G0 j ltac:(lia)) as P. fold (sg j) in P. lra.
        + split; [|apply IH; lia]. rewrite piece_start. pose proof (piece_end n lmin lmax n3 lim y junk s made j ltac:(lia)) as PE. replace (j + 1)%nat with (S j) in PE by lia. exact PE. }
    assert (INC : incs z lo (left_line n lmin lmax s) (map (fun j => (X j, piece n lmin lmax s j)) (seq 0 n))).
    { assert (SQ : seq 0 n = 0%nat :: seq 1 (n - 1)) by (replace n with (S (n - 1)) at 1 by lia; reflexivity). rewrite SQ. cbn [map incs]. split; [lra|]. split; [|split; [rewrite piece_start; unfold left_line; ring|apply TAIL; lia]].
      intros a b _ AB _ _. unfold left_line. pose proof (h_pos 0) as HP. assert (PS : Rabs (slope n lmin lmax s 0 (X 0) - sg 0) <= 85 / 100 * sg 0) by (apply piece_slope; [lia|]; unfold h in *; lra).
      replace (slope n lmin lmax s 0 (X 0)) with (nth 0 (sp_c s) 0) in PS by (unfold slope; cbv zeta; ring). apply abs_in in PS. pose proof (G0 0%nat ltac:(lia)) as P. fold (sg 0) in P.
      assert (nth 0 (sp_c s) 0 * (a - X 0) < nth 0 (sp_c s) 0 * (b - X 0)) by (apply Rmult_lt_compat_l; lra). lra. }
    destruct (incs_paste z _ lo _ INC) as [_ PI]. apply PI; lra.
  Qed.

  Lemma mono_increasing x z : reach z -> ~ window tab x -> ~ window tab z -> x < z -> exists u v, spline_eval s x = Ok u /\ spline_eval s z = Ok v /\ u < v.
  Proof.
    intros RZ W1 W2 XZ. exists (whole n lmin lmax s x), (whole n lmin lmax s z).
    split; [apply (eval_outside n lmin lmax n3 nmax lim y junk s made x W1)|]. split; [apply (eval_outside n lmin lmax n3 nmax lim y junk s made z W2)|]. now apply whole_increases.
  Qed.

  Lemma classic_window x : (exists k, (S k < n)%nat /\ X (S k) - numeric_epsilon <= x < X (S k)) \/ ~ window tab x.
  Proof.
    pose proof eps_pos as EP. destruct (choose n lmin lmax n3 nmax lim x) as [H|(i & E & B & C)].
    - right. intros (k & v & Hv & W). apply at_in in Hv. destruct Hv as [KH ->]. destruct (fin_ k (X k) (X (S k))) as [_ U]; [apply at_gval; lia|apply at_gval; lia|]. pose proof (X_mono n lmin lmax n3 lim 0 k ltac:(lia)). lra.
    - assert (D : X i <= x \/ x < X i) by (destruct (Rle_lt_dec (X i) x); [left|right]; assumption). destruct D as [D|D].
      + right. intros (k & v & Hv & W). apply at_in in Hv. destruct Hv as [KH ->]. destruct C as [[_ C]|[C _]]; [|lra]. destruct (Nat.le_gt_cases (S k) i) as [Q|Q].
        * pose proof (X_mono n lmin lmax n3 lim (S k) i ltac:(lia)). lra.
        * specialize (C ltac:(lia)). pose proof (X_mono n lmin lmax n3 lim (S i) (S k) ltac:(lia)). lra.
      + left. destruct C as [[C _]|[C C0]]; [lra|]. destruct i as [|i]; [lra|]. exists i. split; [lia|exact C].
  Qed.
  (** inside a window below the grid energy number k+1 the next piece is used *)
  Lemma window_eval x k : (S k < n)%nat -> X (S k) - numeric_epsilon <= x < X (S k) -> spline_eval s x = Ok (piece n lmin lmax s (S k) x).
  Proof.
    intros KH W. pose proof eps_pos as EP. assert (GAP : forall j, (S j < n)%nat -> 100 * numeric_epsilon < X (S j) - X j) by (intros j J; destruct (fin_ j (X j) (X (S j))) as [_ U]; [apply at_gval; lia|apply at_gval; lia|exact U]).
    pose proof (GAP k KH) as G. pose proof (X_mono n lmin lmax n3 lim 0 k ltac:(lia)) as M0.
    destruct (choose n lmin lmax n3 nmax lim x) as [H|(i & E & B & C)]; [lra|]. assert (i = S k).
    { destruct (Nat.lt_total i (S k)) as [Q|[Q|Q]]; [exfalso|exact Q|exfalso].
      - pose proof (X_mono n lmin lmax n3 lim (S i) (S k) ltac:(lia)) as M. destruct C as [[_ C]|[C _]]; [specialize (C ltac:(lia)); destruct (Nat.eq_dec i k) as [->|]; [lra|]|].
        + pose proof (X_mono n lmin lmax n3 lim (S i) k ltac:(lia)). lra.
        + pose proof (X_mono n lmin lmax n3 lim i k ltac:(lia)). lra.
      - pose proof (X_mono n lmin lmax n3 lim (S k) (i - 1) ltac:(lia)) as M. pose proof (GAP (i - 1)%nat ltac:(lia)) as G2. replace (S (i - 1)) with i in G2 by lia. destruct C as [[C _]|[C _]]; lra. }
    subst i. destruct (eval_piece n lmin lmax n3 y junk s made x (S k)) as [Ev _]; [lra|exact E|lia| |exact Ev].
    intros Q. pose proof (X_mono n lmin lmax n3 lim (S k) (n - 1) ltac:(lia)). lra.
  Qed.
  Lemma window_slope k c : (S k < n)%nat -> K = (n - 1)%nat \/ (S k < K)%nat -> X (S k) - numeric_epsilon <= c <= X (S k) -> 0 < slope n lmin lmax s (S k) c <= 1.85 * (1.3 * sg k).
  Proof.
    intros KK KR C. pose proof sg0 as G0. pose proof (G0 k ltac:(lia)) as P.
    destruct (Nat.eq_dec (S k) (n - 1)) as [E|NE].
    - pose proof (last_slope c ltac:(lia)) as PS. rewrite E. replace (n - 2)%nat with k in PS by lia. apply abs_in in PS. lra.
    - destruct (fin_ (S k) (X (S k)) (X (S (S k)))) as [_ U]; [apply at_gval; lia|apply at_gval; lia|]. pose proof (G0 (S k) ltac:(lia)) as P2.
      destruct (wv k ltac:(lia)) as [G2 _]. rewrite !wK in G2 by lia. pose proof (h_pos (S k)) as HP.
      assert (PS : Rabs (slope n lmin lmax s (S k) c - sg (S k)) <= 85 / 100 * sg (S k)) by (apply piece_slope; [lia|unfold h in *; lra]). apply abs_in in PS. lra.
  Qed.
  Lemma window_reach k x : reach x -> X (S k) - numeric_epsilon <= x -> K = (n - 1)%nat \/ (S k < K)%nat.
  Proof. intros [A|A] B; [left; exact A|right]. destruct (Nat.lt_ge_cases (S k) K) as [C|C]; [exact C|]. pose proof (X_mono n lmin lmax n3 lim K (S k) ltac:(lia)). lra. Qed.
  Lemma eval_below x : reach (x + numeric_epsilon) -> exists u, spline_eval s x = Ok u /\ u < whole n lmin lmax s (x + numeric_epsilon).
  Proof.
    intros RX. pose proof eps_pos as EP. assert (RX0 : reach x) by (destruct RX; [left; assumption|right; lra]). destruct (classic_window x) as [(k & KK & W)|NW].
    - exists (piece n lmin lmax s (S k) x). split; [apply window_eval; assumption|]. pose proof (window_reach k x RX0 ltac:(lra)) as KR.
      assert (A : piece n lmin lmax s (S k) x < piece n lmin lmax s (S k) (X (S k))) by (apply (piece_increases (S k) (X (S k) - numeric_epsilon) (X (S k))); try lra; intros c C; apply window_slope; [exact KK|exact KR|lra]).
      assert (B : whole n lmin lmax s (X (S k)) = piece n lmin lmax s (S k) (X (S k))) by (apply (whole_piece n lmin lmax n3 lim); [lia|lra|intros; apply X_lt; [exact n3|exact lim|lia]]).
      rewrite <- B in A. assert (LE : X (S k) <= x + numeric_epsilon) by (destruct W; lra). destruct (Rle_lt_or_eq_dec _ _ LE) as [LT|<-]; [|exact A]. pose proof (whole_increases (X (S k)) (x + numeric_epsilon) RX LT). lra.
    - exists (whole n lmin lmax s x). split; [apply (eval_outside n lmin lmax n3 nmax lim y junk s made x NW)|]. apply whole_increases; [exact RX|lra].
  Qed.
  Lemma eval_above x : reach x -> exists u, spline_eval s x = Ok u /\ whole n lmin lmax s (x - 19 * numeric_epsilon) < u.
  Proof.
    intros RX. pose proof eps_pos as EP. destruct (classic_window x) as [(k & KK & W)|NW].
    - exists (piece n lmin lmax s (S k) x). split; [apply window_eval; assumption|]. pose proof (window_reach k x RX ltac:(lra)) as KR. pose proof (sg0 k ltac:(lia)) as P.
      destruct (fin_ k (X k) (X (S k))) as [_ U]; [apply at_gval; lia|apply at_gval; lia|].
      assert (A : piece n lmin lmax s (S k) (X (S k)) - 1.85 * (1.3 * sg k) * numeric_epsilon <= piece n lmin lmax s (S k) x).
      { destruct (MVT_cor2 (piece n lmin lmax s (S k)) (slope n lmin lmax s (S k)) x (X (S k)) ltac:(lra)) as (c & E & C); [intros c C; apply piece_deriv|].
        destruct (window_slope k c KK KR ltac:(lra)) as [S1 S2]. assert (slope n lmin lmax s (S k) c * (X (S k) - x) <= slope n lmin lmax s (S k) c * numeric_epsilon) by (apply Rmult_le_compat_l; lra).
        assert (slope n lmin lmax s (S k) c * numeric_epsilon <= 1.85 * (1.3 * sg k) * numeric_epsilon) by (apply Rmult_le_compat_r; lra). lra. }
      assert (B : piece n lmin lmax s k (X (S k) - 19 * numeric_epsilon) <= piece n lmin lmax s k (X (S k)) - 0.15 * sg k * (19 * numeric_epsilon)).
      { assert (LT : X (S k) - 19 * numeric_epsilon < X (S k)) by lra. destruct (MVT_cor2 (piece n lmin lmax s k) (slope n lmin lmax s k) _ _ LT) as (c & E & C); [intros c C; apply piece_deriv|].
        assert (PS : Rabs (slope n lmin lmax s k c - sg k) <= 85 / 100 * sg k) by (apply piece_slope; [lia|pose proof (h_pos k); lra]). apply abs_in in PS.
        assert (0.15 * sg k * (19 * numeric_epsilon) <= slope n lmin lmax s k c * (19 * numeric_epsilon)) by (apply Rmult_le_compat_r; lra).
        replace (X (S k) - (X (S k) - 19 * numeric_epsilon)) with (19 * numeric_epsilon) in E by ring. lra. }
      pose proof (piece_end n lmin lmax n3 lim y junk s made k ltac:(lia)) as PE. replace (k + 1)%nat with (S k) in PE by lia. rewrite piece_start in A. rewrite PE in B.
      assert (D : whole n lmin lmax s (X (S k) - 19 * numeric_epsilon) = piece n lmin lmax s k (X (S k) - 19 * numeric_epsilon)) by (apply (whole_piece n lmin lmax n3 lim); [lia|lra|intros; lra]).
      assert (LT : x - 19 * numeric_epsilon < X (S k) - 19 * numeric_epsilon) by lra. assert (RL : reach (X (S k) - 19 * numeric_epsilon)) by (destruct RX; [left; assumption|right; lra]). pose proof (whole_increases _ _ RL LT) as WI. assert (0 < sg k * numeric_epsilon) by (apply Rmult_lt_0_compat; assumption). lra.
    - exists (whole n lmin lmax s x). split; [apply (eval_outside n lmin lmax n3 nmax lim y junk s made x NW)|]. apply whole_increases; [exact RX|lra].
  Qed.
  Lemma mono_far x z : reach z -> x + 20 * numeric_epsilon <= z -> exists u v, spline_eval s x = Ok u /\ spline_eval s z = Ok v /\ u < v.
  Proof.
    intros RZ XZ. pose proof eps_pos as EP. destruct (eval_below x) as (u & U & U1); [destruct RZ; [left; assumption|right; lra]|]. destruct (eval_above z RZ) as (v & V & V1). exists u, v. split; [exact U|]. split; [exact V|].
    assert (whole n lmin lmax s (x + numeric_epsilon) <= whole n lmin lmax s (z - 19 * numeric_epsilon)).
    { assert (LE : x + numeric_epsilon <= z - 19 * numeric_epsilon) by lra. destruct (Rle_lt_or_eq_dec _ _ LE) as [L|<-]; [left; apply whole_increases; [destruct RZ; [left; assumption|right; lra]|exact L]|lra]. }
    lra.
  Qed.
End Mono.

Section Gentle.
  Variables (n : nat) (lmin lmax : R).
  Hypothesis n3 : (3 <= n)%nat.
  Hypothesis nmax : (Z.of_nat n < 2147483648)%Z.
  Hypothesis lim : lmin < lmax.
  Notation tab := (et_make n lmin lmax).
  Notation X i := (gval n lmin lmax (INR i)).
  Hypothesis fin_ : fine tab.
  Variables (y : list R) (junk : R * R) (s : spline R).
  Hypothesis J0 : Rabs (fst junk) < 2.
  Hypothesis J1 : Rabs (snd junk) < 2.
  Hypothesis made : make_spline tab y junk = Ok s.
  Section Whole.
  Hypothesis gen : gentle tab y.
  Let sg (i : nat) : R := chord_slope tab y i.
  Lemma whole_weights : (1 <= n - 1 <= n - 1)%nat /\ (forall i, (i < n - 1)%nat -> 0 < sg i) /\ (forall i, (S i < n - 1)%nat -> sg (S i) <= 13 / 10 * sg i /\ sg i <= 13 / 10 * sg (S i)) /\
    (forall i, (S i < n - 1)%nat -> Rabs (sg (S i) - sg i) <= 15 / 100 * (sg i + sg (S i))).
  Proof.
    destruct gen as [G0 G1]. rewrite et_n_R in G0, G1. split; [lia|]. split; [intros i I; apply G0; lia|]. split; intros i I; destruct (G1 i ltac:(lia)) as [U V]; fold (sg i) (sg (S i)) in U, V; [lra|].
    apply Rabs_le. lra.
  Qed.
  (** ** The derivative the code computes is between 0.15 and 1.85 times the slope of the chord, at every energy *)
  Theorem C65_derivative x : exists d i, spline_deriv s x = Ok d /\ (S i < n)%nat /\
    (i <> 0%nat -> X i - numeric_epsilon <= x) /\ (S i <> (n - 1)%nat -> x <= X (S i)) /\
    0 < chord_slope tab y i /\ 0.15 * chord_slope tab y i <= d <= 1.85 * chord_slope tab y i.
  Proof.
    destruct whole_weights as (K1 & W0 & WV & WC). destruct (mono_derivative n lmin lmax n3 nmax lim fin_ y junk s J0 J1 made sg (n - 1) K1 W0 WV WC ltac:(reflexivity) x ltac:(left; reflexivity)) as (d & i & D & I & R1).
    exists d, i. split; [exact D|]. split; [lia|exact R1].
  Qed.
  (** ** The spline increases strictly, on the grid and beyond its ends *)
  Theorem C65_increasing x z : ~ window tab x -> ~ window tab z -> x < z -> exists u v, spline_eval s x = Ok u /\ spline_eval s z = Ok v /\ u < v.
  Proof.
    destruct whole_weights as (K1 & W0 & WV & WC). exact (mono_increasing n lmin lmax n3 nmax lim fin_ y junk s J0 J1 made sg (n - 1) K1 W0 WV WC ltac:(reflexivity) x z ltac:(left; reflexivity)).
  Qed.
  (** ** also between any two energies that differ by more than 20 tolerances, windows included *)
  Theorem C65_increasing_far x z : x + 20 * numeric_epsilon <= z -> exists u v, spline_eval s x = Ok u /\ spline_eval s z = Ok v /\ u < v.
  Proof.
    destruct whole_weights as (K1 & W0 & WV & WC). exact (mono_far n lmin lmax n3 nmax lim fin_ y junk s J0 J1 made sg (n - 1) K1 W0 WV WC ltac:(reflexivity) x z ltac:(left; reflexivity)).
  Qed.
  End Whole.

  (** ** Data that are gentle only up to some energy: the same at energies further below *)
  Section Below.
  Variables (j m : nat).
  Hypothesis gen : gentle_below tab y j m.
  Let sg (i : nat) : R := chord_slope tab y i.
  Let w (i : nat) : R := if (i <=? j)%nat then sg i else sg j * 1.3 ^ (Nat.min (i - j) m).
  Lemma pow13_pos k : 0 < 1.3 ^ k.
  Proof. apply pow_lt. lra. Qed.
  Lemma w_after i : (j <= i)%nat -> w i = sg j * 1.3 ^ (Nat.min (i - j) m).
  Proof. intros I. unfold w. destruct (Nat.leb_spec i j) as [L|L]; [|reflexivity]. replace i with j by lia. rewrite Nat.sub_diag. cbn [Nat.min pow]. ring. Qed.
  Lemma sg_below_w i : (i <= j + m)%nat -> 0 < sg i <= w i.
  Proof.
    destruct gen as (N & G0 & G1 & _). intros I. split; [apply G0; exact I|]. destruct (Nat.le_gt_cases i j) as [L|L]; [unfold w; destruct (Nat.leb_spec i j); [lra|lia]|].
    rewrite w_after by lia. remember (i - j)%nat as k eqn:E. assert (EI : i = (j + k)%nat) by lia. subst i. clear E L. rewrite Nat.min_l by lia. induction k as [|k IH]; [rewrite Nat.add_0_r; cbn [pow]; lra|].
    destruct (G1 (j + k)%nat ltac:(lia)) as [U _]. specialize (IH ltac:(lia)). replace (j + S k)%nat with (S (j + k)) by lia. unfold sg at 1. cbn [pow]. fold (sg (j + k)) in U. lra.
  Qed.
  Lemma below_weights : (1 <= S j <= n - 1)%nat /\ (forall i, (i < n - 1)%nat -> 0 < w i) /\ (forall i, (S i < n - 1)%nat -> w (S i) <= 13 / 10 * w i /\ w i <= 13 / 10 * w (S i)) /\
    (forall i, (S i < n - 1)%nat -> Rabs (sg (S i) - sg i) <= 15 / 100 * (w i + w (S i))) /\ (forall i, (i < S j)%nat -> w i = sg i).
  Proof.
    pose proof gen as (N & G0 & G1 & G2). rewrite et_n_R in N, G2. pose proof (G0 j ltac:(lia)) as GJ. fold (sg j) in GJ. split; [lia|].
    assert (LOW : forall i, (i <= j)%nat -> w i = sg i) by (intros i I; unfold w; destruct (Nat.leb_spec i j); [reflexivity|lia]). split.
    { intros i I. destruct (Nat.le_gt_cases i j) as [L|L]; [rewrite LOW by exact L; apply G0; lia|]. rewrite w_after by lia. apply Rmult_lt_0_compat; [exact GJ|apply pow13_pos]. }
    split.
    { intros i I. destruct (Nat.lt_ge_cases i j) as [L|L].
      - rewrite !LOW by lia. destruct (G1 i ltac:(lia)) as [U V]. fold (sg i) (sg (S i)) in U, V. lra.
      - rewrite !w_after by lia. destruct (Nat.lt_ge_cases (i - j) m) as [Q|Q].
        + rewrite !Nat.min_l by lia. replace (S i - j)%nat with (S (i - j)) by lia. cbn [pow]. pose proof (pow13_pos (i - j)) as P. assert (0 < sg j * 1.3 ^ (i - j)) by (apply Rmult_lt_0_compat; assumption). lra.
        + rewrite !Nat.min_r by lia. pose proof (pow13_pos m) as P. assert (0 < sg j * 1.3 ^ m) by (apply Rmult_lt_0_compat; assumption). lra. }
    split; [|intros i I; apply LOW; lia].
    intros i I. destruct (Nat.lt_ge_cases i (j + m)) as [L|L].
    - destruct (G1 i L) as [U V]. fold (sg i) (sg (S i)) in U, V. destruct (sg_below_w i ltac:(lia)). destruct (sg_below_w (S i) ltac:(lia)). apply Rabs_le. lra.
    - destruct (G2 i L ltac:(lia)) as [A1 A2]. destruct (G2 (S i) ltac:(lia) ltac:(lia)) as [B1 B2]. fold (sg i) in A1, A2. fold (sg (S i)) in B1, B2. fold (sg j) in A2, B2. rewrite !w_after by lia. rewrite !Nat.min_r by lia.
      apply Rabs_le. lra.
  Qed.
  Lemma below_reach x : x <= X j -> S j = (n - 1)%nat \/ x < X (S j) - numeric_epsilon.
  Proof.
    intros H. right. destruct gen as (N & _). rewrite et_n_R in N. destruct (fin_ j (X j) (X (S j))) as [_ U]; [apply at_gval; lia|apply at_gval; lia|]. pose proof eps_pos. lra.
  Qed.
  Theorem C65_derivative_below x : x <= X j -> exists d i, spline_deriv s x = Ok d /\ (i <= j)%nat /\ (i <> 0%nat -> X i - numeric_epsilon <= x) /\ x <= X (S i) /\
    0 < chord_slope tab y i /\ 0.15 * chord_slope tab y i <= d <= 1.85 * chord_slope tab y i.
  Proof.
    intros H. destruct below_weights as (K1 & W0 & WV & WC & WK). destruct (mono_derivative n lmin lmax n3 nmax lim fin_ y junk s J0 J1 made w (S j) K1 W0 WV WC WK x (below_reach x H)) as (d & i & D & I & R1 & R2 & R3).
    exists d, i. split; [exact D|]. split; [lia|]. split; [exact R1|]. split; [|exact R3]. destruct gen as (N & _). rewrite et_n_R in N. destruct (Nat.eq_dec (S i) (n - 1)) as [E|E]; [|exact (R2 E)]. pose proof (X_lt n lmin lmax n3 lim j (S i) ltac:(lia)). lra.
  Qed.
  Theorem C65_increasing_below x z : x + 20 * numeric_epsilon <= z -> z <= X j -> exists u v, spline_eval s x = Ok u /\ spline_eval s z = Ok v /\ u < v.
  Proof.
    intros XZ H. destruct below_weights as (K1 & W0 & WV & WC & WK). exact (mono_far n lmin lmax n3 nmax lim fin_ y junk s J0 J1 made w (S j) K1 W0 WV WC WK x z (below_reach z H) XZ).
  Qed.
  End Below.
End Gentle.
Print Assumptions C65_derivative_below.
Print Assumptions C65_increasing_below.
Print Assumptions C65_derivative.
Print Assumptions C65_increasing.
Print Assumptions C65_increasing_far.

(** ** The energy grid of the library *)
Lemma library_fine : fine (et_make 600 (-3) 7).
Proof.
  intros k a b Ha Hb. rewrite <- energy_table_eq in Ha, Hb. pose proof (library_spacing k a b Ha Hb) as SP. pose proof eps_small as ES. split; [|lra].
  rewrite energy_table_eq in Ha, Hb. apply at_in in Ha, Hb. destruct Ha as [_ ->], Hb as [_ ->]. pose proof (gval_ratio 600 (-3) 7 (INR k)) as Q. rewrite S_INR. pose proof (gval_pos 600 (-3) 7 (INR k)) as P.
  set (x := gval 600 (-3) 7 (INR k)) in *. set (z := gval 600 (-3) 7 (INR k + 1)) in *.
  assert (L : LN10_ (F:=R) * gstep 600 (-3) 7 <= 384407 / 10000000). { unfold LN10_, gstep. numR. replace (INR 600) with 600 by (rewrite INR_IZR_INZ; reflexivity). dec_norm. lra. }
  assert (E : exp (LN10_ * gstep 600 (-3) 7) <= 104 / 100).
  { set (l := LN10_ * gstep 600 (-3) 7) in *. pose proof (exp_ineq1_le (- l)) as X. pose proof (exp_pos l) as EP. assert (EE : exp (- l) * exp l = 1) by (rewrite <- exp_plus, Rplus_opp_l; apply exp_0).
    assert ((1 - 384407 / 10000000) * exp l <= exp (- l) * exp l) by (apply Rmult_le_compat_r; lra). lra. }
  rewrite <- Q in E. apply (Rmult_le_compat_r x) in E; [|lra]. replace (z / x * x) with z in E by (field; lra). lra.
Qed.

(** ** A concrete case: the squares of the grid energies; a chord is the sum of two neighbouring energies *)
Definition squares : list R := map (fun i => gval 600 (-3) 7 (INR i) ^ 2) (seq 0 600).
Lemma squares_slope i : (S i < 600)%nat -> chord_slope (et_make 600 (-3) 7) squares i = gval 600 (-3) 7 (INR (S i)) + gval 600 (-3) 7 (INR i).
Proof.
  intros I. unfold chord_slope, squares. rewrite !seq_map_nth by lia. rewrite !X_nth by lia. pose proof (X_lt 600 (-3) 7 ltac:(lia) ltac:(lra) i (S i) ltac:(lia)). field. lra.
Qed.
Lemma squares_gentle : gentle (et_make 600 (-3) 7) squares.
Proof.
  assert (P : forall i, 0 < gval 600 (-3) 7 (INR i)) by (intros; apply gval_pos).
  assert (U : forall i, (S i < 600)%nat -> gval 600 (-3) 7 (INR i) < gval 600 (-3) 7 (INR (S i)) <= 1.04 * gval 600 (-3) 7 (INR i)).
  { intros i I. split; [apply X_lt; [lia|lra|lia]|]. apply (library_fine i); apply at_gval; lia. }
  unfold gentle. rewrite et_n_R. split; intros i I.
  - rewrite squares_slope by lia. pose proof (P i). pose proof (P (S i)). lra.
  - rewrite !squares_slope by lia. destruct (U i ltac:(lia)). destruct (U (S i) ltac:(lia)). pose proof (P i). lra.
Qed.
Example C65_case : exists s, make_spline energy_table squares (1, -1) = Ok s /\ (forall x, exists d, spline_deriv s x = Ok d /\ 0 < d) /\
  forall x z, ~ window energy_table x -> ~ window energy_table z -> x < z -> exists u v, spline_eval s x = Ok u /\ spline_eval s z = Ok v /\ u < v.
Proof.
  rewrite energy_table_eq. assert (L : length squares = 600%nat) by (unfold squares; rewrite map_length; apply seq_length). destruct (C20_defined 600 (-3) 7 squares (1, -1)) as [s Hs]; [lia|lia|]. exists s. split; [exact Hs|].
  assert (J0 : Rabs (fst (1, -1)) < 2) by (cbn [fst]; rewrite Rabs_pos_eq; lra). assert (J1 : Rabs (snd (1, -1)) < 2) by (cbn [snd]; rewrite Rabs_left; lra). split.
  - intros x. destruct (C65_derivative 600 (-3) 7 ltac:(lia) ltac:(lia) ltac:(lra) library_fine squares (1, -1) s J0 J1 Hs squares_gentle x) as (d & i & D & _ & _ & _ & P & B). exists d. split; [exact D|]. lra.
  - intros x z W1 W2 XZ. exact (C65_increasing 600 (-3) 7 ltac:(lia) ltac:(lia) ltac:(lra) library_fine squares (1, -1) s J0 J1 Hs squares_gentle x z W1 W2 XZ).
Qed.


(** ** Without the condition on neighbouring chords it is false: data that increase strictly, with a spline that decreases somewhere *)
Lemma data_line_solution n lmin lmax (b : nat -> R) e junk : (3 <= n)%nat -> lmin < lmax ->
  Rabs (fst junk) < 2 -> Rabs (snd junk) < 2 ->
  2 * b 0%nat + fst junk * b 1%nat = 0 -> snd junk * b (n - 2)%nat + 2 * b (n - 1)%nat = 0 ->
  let x i := gval n lmin lmax (INR i) in
  let y := map (fun i => datum x b i + e * x i) (seq 0 n) in
  trig_solve (spline_rows (et_values (et_make n lmin lmax)) (firstn n y) junk) = Ok (map b (seq 0 n)).
Proof.
  intros N3 Lim J0 J1 B0 B1. cbv zeta.
  set (x := fun i => gval n lmin lmax (INR i)). set (y := map (fun i => datum x b i + e * x i) (seq 0 n)).
  assert (Ly : length y = n) by (unfold y; rewrite map_length, seq_length; reflexivity).
  assert (Fy : firstn n y = y) by (rewrite <- Ly; apply firstn_all). rewrite Fy.
  assert (LV : length (et_values (et_make n lmin lmax)) = n) by apply et_values_length.
  destruct (C22_spline_rows (et_values (et_make n lmin lmax)) y junk (tab_increasing n lmin lmax N3 Lim)
              ltac:(lia) ltac:(lia) J0 J1) as (b' & Sb & _ & U).
  rewrite Sb. f_equal. symmetry. apply U. clear Sb U b'.
  assert (LR : length (spline_rows (et_values (et_make n lmin lmax)) y junk) = n)
    by (rewrite TotalProofs.spline_rows_length; lia).
  split; [rewrite map_length, seq_length; lia|]. rewrite LR. intros i Hi r Hr. rewrite LR.
  unfold spline_rows in Hr.
  destruct i as [|i].
  - injection Hr as <-. cbn [ra rd rc rb]. destruct (Nat.eqb_spec 1 n); [lia|]. destruct (Nat.eqb_spec 0 0); [|lia].
    rewrite !seq_map_nth by lia. numR. dec_norm. lra.
  - cbn [nth_error] in Hr. destruct (Nat.lt_total i (n - 2)) as [B|[B|B]].
    + rewrite nth_error_app1 in Hr by (rewrite inner_rows_length; lia).
      destruct (inner_rows_nth (et_values (et_make n lmin lmax)) y i ltac:(lia) ltac:(lia)) as (r' & E & Ra & Rd & Rc & Rb).
      assert (r' = r) by congruence. subst r'. rewrite Ra, Rd, Rc, Rb. rewrite !X_nth by (assumption || lia).
      unfold y. rewrite !seq_map_nth by lia. fold (x i) (x (i + 1)%nat) (x (i + 2)%nat).
      destruct (Nat.eqb_spec (S i) 0); [lia|]. destruct (Nat.eqb_spec (S (S i)) n); [lia|].
      replace (S i - 1)%nat with i by lia.
      replace (S (S i)) with (i + 2)%nat by lia. replace (S i) with (i + 1)%nat by lia.
      assert (O1 : x i < x (i + 1)%nat) by (apply X_lt; [exact N3|exact Lim|lia]).
      assert (O2 : x (i + 1)%nat < x (i + 2)%nat) by (apply X_lt; [exact N3|exact Lim|lia]).
      assert (D1 : datum x b (i + 1) = datum x b i + chord x b i * (x (i + 1)%nat - x i)).
      { replace (i + 1)%nat with (S i) by lia. reflexivity. }
      assert (D2 : datum x b (i + 2) = datum x b (i + 1) + (chord x b i + row_lhs x b (i + 1)) * (x (i + 2)%nat - x (i + 1)%nat)).
      { replace (i + 2)%nat with (S (S i)) by lia. replace (i + 1)%nat with (S i) by lia. reflexivity. }
      rewrite D2, D1. unfold row_lhs. replace (i + 1 + 1)%nat with (i + 2)%nat by lia.
      replace (i + 1 - 1)%nat with i by lia. field. lra.
    + subst i. rewrite nth_error_app2 in Hr by (rewrite inner_rows_length; lia).
      rewrite inner_rows_length in Hr by lia. rewrite LV, Nat.sub_diag in Hr. injection Hr as <-. cbn [ra rd rc rb].
      destruct (Nat.eqb_spec (S (n - 2)) 0); [lia|]. destruct (Nat.eqb_spec (S (S (n - 2))) n); [|lia].
      replace (S (n - 2) - 1)%nat with (n - 2)%nat by lia. replace (S (n - 2)) with (n - 1)%nat by lia.
      rewrite !seq_map_nth by lia. numR. dec_norm. lra.
    + lia.
Qed.
Section Overshoot.
  Let x (i : nat) := gval 600 (-3) 7 (INR i).
  Let b (i : nat) : R := if Nat.eqb i 2 then 1 else 0.
  (** a straight line and curvature only at the third grid energy *)
  Definition over_data (e : R) : list R := map (fun i => datum x b i + e * x i) (seq 0 600).
  Lemma over_lt i j : (i < j)%nat -> x i < x j.
  Proof. intros H. apply X_lt; [lia|lra|exact H]. Qed.
  Lemma b_nonneg i : 0 <= b i.
  Proof. unfold b. destruct (Nat.eqb i 2); lra. Qed.
  Lemma chord_nonneg i : 0 <= chord x b i.
  Proof.
    induction i as [|i IH]; [cbn [chord]; lra|]. cbn [chord]. unfold row_lhs. replace (S i + 1)%nat with (S (S i)) by lia. replace (S i - 1)%nat with i by lia.
    pose proof (over_lt i (S i) ltac:(lia)). pose proof (over_lt (S i) (S (S i)) ltac:(lia)).
    assert (0 <= (x (S (S i)) - x (S i)) * b i) by (apply Rmult_le_pos; [lra|apply b_nonneg]).
    assert (0 <= (x (S (S i)) - x i) * b (S i)) by (apply Rmult_le_pos; [lra|apply b_nonneg]).
    assert (0 <= (x (S i) - x i) * b (S (S i))) by (apply Rmult_le_pos; [lra|apply b_nonneg]). lra.
  Qed.
  Lemma datum_incr i j : (i <= j)%nat -> datum x b i <= datum x b j.
  Proof.
    induction 1 as [|j _ IH]; [lra|]. cbn [datum]. pose proof (over_lt j (S j) ltac:(lia)). assert (0 <= chord x b j * (x (S j) - x j)) by (apply Rmult_le_pos; [apply chord_nonneg|lra]). lra.
  Qed.
  Lemma over_growth : x 1%nat - x 0%nat < x 2%nat - x 1%nat < 2 * (x 1%nat - x 0%nat).
  Proof.
    pose proof (gval_ratio 600 (-3) 7 (INR 0)) as R1. pose proof (gval_ratio 600 (-3) 7 (INR 1)) as R2.
    replace (INR 0 + 1) with (INR 1) in R1 by (cbn; ring). replace (INR 1 + 1) with (INR 2) in R2 by (cbn; ring). fold (x 0%nat) (x 1%nat) (x 2%nat) in R1, R2.
    pose proof (gval_pos 600 (-3) 7 (INR 0)) as P0. pose proof (gval_pos 600 (-3) 7 (INR 1)) as P1. fold (x 0%nat) in P0. fold (x 1%nat) in P1.
    pose proof (over_lt 0 1 ltac:(lia)) as L0. destruct (library_fine 0%nat (x 0%nat) (x 1%nat)) as [F _]; [apply at_gval; lia|apply at_gval; lia|].
    set (rr := exp (LN10_ * gstep 600 (-3) 7)) in *.
    assert (E1 : x 1%nat = x 0%nat * rr) by (rewrite <- R1; field; lra). assert (E2 : x 2%nat = x 1%nat * rr) by (rewrite <- R2; field; lra).
    assert (RR : 1 < rr) by (apply (Rmult_lt_reg_l (x 0%nat)); lra). assert (RU : rr <= 1.04) by (apply (Rmult_le_reg_l (x 0%nat)); lra).
    replace (x 2%nat - x 1%nat) with (rr * (x 1%nat - x 0%nat)) by (rewrite E2, E1; ring). split.
    - assert (0 < (rr - 1) * (x 1%nat - x 0%nat)) by (apply Rmult_lt_0_compat; lra). lra.
    - assert (0 < (2 - rr) * (x 1%nat - x 0%nat)) by (apply Rmult_lt_0_compat; lra). lra.
  Qed.
  Theorem C65_increasing_refuted : exists (y : list R) s u v, length y = 600%nat /\ (forall i j, (i < j < 600)%nat -> nth i y 0 < nth j y 0) /\
    make_spline energy_table y (0, 0) = Ok s /\ exists p q, ~ window energy_table p /\ ~ window energy_table q /\ p < q /\ spline_eval s p = Ok u /\ spline_eval s q = Ok v /\ v < u.
  Proof.
    rewrite energy_table_eq. pose proof over_growth as [G1 G2]. pose proof (over_lt 0 1 ltac:(lia)) as L0. pose proof eps_small as ES. pose proof eps_pos as EP.
    assert (S0 : 1 / 100000 < x 1%nat - x 0%nat) by (apply (library_spacing 0%nat); rewrite energy_table_eq; apply at_gval; lia).
    set (h := x 1%nat - x 0%nat) in *. set (H := x 2%nat - x 1%nat) in *. set (t := H - h).
    assert (T : 0 < t < h) by (unfold t; lra). set (e := t * h / (6 * H)).
    assert (EE : 0 < e). { unfold e. apply Rdiv_lt_0_compat; [apply Rmult_lt_0_compat; lra|lra]. }
    assert (Ld : length (over_data e) = 600%nat) by (unfold over_data; rewrite map_length; apply seq_length).
    destruct (C20_defined 600 (-3) 7 (over_data e) (0, 0)) as [s Hs]; [lia|lia|]. exists (over_data e), s, (e * x 1%nat), (- (t * t * h) / (3 * H) + e * (x 1%nat + t)).
    split; [exact Ld|]. split.
    { intros i j I. unfold over_data. rewrite !seq_map_nth by lia. pose proof (datum_incr i j ltac:(lia)). pose proof (over_lt i j ltac:(lia)). assert (0 < e * (x j - x i)) by (apply Rmult_lt_0_compat; lra). lra. }
    split; [exact Hs|]. exists (x 1%nat), (x 1%nat + t).
    assert (W1 : ~ window (et_make 600 (-3) 7) (x 1%nat)) by (apply knot_not_window; try lia; try lra; exact library_grid_spacing).
    assert (W2 : ~ window (et_make 600 (-3) 7) (x 1%nat + t)).
    { intros (k & v & Hv & W). apply at_in in Hv. destruct Hv as [KH ->]. destruct k as [|k]; [fold (x 1%nat) in W; lra|].
      assert (x 2%nat <= gval 600 (-3) 7 (INR (S (S k)))) by (apply gval_le; [lia|lra|apply le_INR; lia]). unfold t, H in *. lra. }
    split; [exact W1|]. split; [exact W2|]. split; [lra|].
    destruct (made_arrays 600 (-3) 7 ltac:(lia) _ (0, 0) s Hs) as (Ly & _ & Ey & bb & Sb & A).
    assert (J : Rabs 0 < 2) by (rewrite Rabs_R0; lra).
    pose proof (data_line_solution 600 (-3) 7 b e (0, 0) ltac:(lia) ltac:(lra) J J) as D. cbv zeta in D.
    assert (BB : bb = map b (seq 0 600)).
    { pose proof (D : _ -> _ -> trig_solve (spline_rows (et_values (et_make 600 (-3) 7)) (firstn 600 (over_data e)) (0, 0)) = Ok (map b (seq 0 600))) as D1. rewrite D1 in Sb; [congruence|cbn [fst b]; unfold b; destruct (Nat.eqb_spec 0 2), (Nat.eqb_spec 1 2); try lia; ring|].
      cbn [snd]. unfold b. destruct (Nat.eqb_spec (600 - 2) 2), (Nat.eqb_spec (600 - 1) 2); try lia. ring. }
    assert (PA : forall z, piece 600 (-3) 7 s 1 z = (z - x 1%nat) ^ 3 / (3 * H) - t / 3 * (z - x 1%nat) + e * z).
    { intros z. assert (LV : length (et_values (et_make 600 (-3) 7)) = 600%nat) by apply et_values_length. unfold piece. cbv zeta. fold (x 1%nat). rewrite (ar_sa _ _ _ _ A 1), (ar_sb _ _ _ _ A 1), (ar_sc _ _ _ _ A 1) by lia. cbn [Nat.add]. rewrite Ey, !X_nth, BB by lia. unfold over_data. rewrite !seq_map_nth by lia.
      fold (x 0%nat) (x 1%nat) (x 2%nat). assert (b1 : b 1%nat = 0) by reflexivity. assert (b2 : b 2%nat = 1) by reflexivity. assert (b0 : b 0%nat = 0) by reflexivity.
      rewrite b1, b2. cbn [datum chord]. unfold row_lhs. cbn [Nat.add Nat.sub]. rewrite b0, b1, b2. unfold t, H, h. unfold H, h in G1. field. lra. }
    split; [|split].
    - rewrite (eval_outside 600 (-3) 7 ltac:(lia) ltac:(lia) ltac:(lra) _ _ s Hs _ W1). f_equal. rewrite (whole_piece 600 (-3) 7 ltac:(lia) ltac:(lra) s 1); [rewrite PA; field; lra|lia|fold (x 1%nat); lra|].
      intros _. apply over_lt. lia.
    - rewrite (eval_outside 600 (-3) 7 ltac:(lia) ltac:(lia) ltac:(lra) _ _ s Hs _ W2). f_equal. rewrite (whole_piece 600 (-3) 7 ltac:(lia) ltac:(lra) s 1); [rewrite PA; unfold t; field; lra|lia|fold (x 1%nat); lra|].
      intros _. fold (x 2%nat). unfold t, H in *. lra.
    - assert (QQ : e * t = (t * t * h) / (3 * H) / 2) by (unfold e; field; lra). assert (0 < (t * t * h) / (3 * H)) by (apply Rdiv_lt_0_compat; [repeat apply Rmult_lt_0_compat; lra|lra]).
      replace (- (t * t * h) / (3 * H)) with (- ((t * t * h) / (3 * H))) by (field; lra). lra.
  Qed.
End Overshoot.
Print Assumptions C65_increasing_refuted.
